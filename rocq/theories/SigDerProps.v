(** C28, C29: DER signature scripts. *)
From Coq Require Import ZArith List Bool Lia ZifyBool ZifyNat.
From Verif Require Import Go GoFacts GoFacts2 SigModel.
Import ListNotations.
Open Scope Z_scope.
Ltac Zify.zify_post_hook ::= idtac.

(** ** Specification *)
(** The DER (minimal, two's complement) content bytes of a nonnegative integer. *)
Definition der_int (v : Z) (R : bytes) : Prop :=
  is_bytes R /\ R <> [] /\ be_num R = v /\ hd 0 R < 128 /\
  (forall x y l, R = x :: y :: l -> x = 0 -> 128 <= y).
(** A signature script made from the content bytes of two integers: push length, SEQUENCE, two INTEGERs, type. *)
Definition sig_script (R S : bytes) (t : Z) : bytes :=
  [zlen R + zlen S + 7; 0x30; zlen R + zlen S + 4] ++ [2; zlen R] ++ R ++ [2; zlen S] ++ S ++ [t].
(** The content bytes the decoder lets through, and the 32 bytes it takes from them. *)
Definition loose_int (R : bytes) : Prop :=
  (length R <= 33)%nat /\ (length R = 33%nat -> forall x y l, R = x :: y :: l -> x = 0 \/ 128 <= y).
Definition taken (R : bytes) : bytes := zeros (32 - length R) ++ (if (length R =? 33)%nat then tl R else R).
(** A script up to the second integer, and the bytes [rest] after it once the decoder has put r and s together. It
    appends s to r where r stands in the script: when r has 32 or 33 content bytes and s fewer than 30, the first
    30 - |s| bytes of [rest] become the last bytes of s. *)
Definition sig_head (R S : bytes) : bytes := [zlen R + zlen S + 7; 0x30; zlen R + zlen S + 4] ++ [2; zlen R] ++ R ++ [2; zlen S] ++ S.
Definition overwritten (k : nat) (half rest : bytes) : bytes := firstn (length rest) (skipn (32 - k) half ++ skipn k rest).
Definition left_after (R S rest : bytes) : bytes := overwritten (if (32 <=? length R)%nat then 30 - length S else 0) (taken S) rest.

Lemma high_bit x : is_byte x -> (Z.land x 128 =? 128) = (128 <=? x).
Proof.
  intros H. assert (F : forallb (fun n => Bool.eqb (Z.land (Z.of_nat n) 128 =? 128) (128 <=? Z.of_nat n)) (seq 0 256) = true) by (vm_compute; reflexivity).
  rewrite forallb_forall in F. specialize (F (Z.to_nat x) ltac:(apply in_seq; unfold is_byte in H; lia)).
  rewrite Z2Nat.id in F by (unfold is_byte in H; lia). apply eqb_prop in F. exact F.
Qed.
Lemma der_strip_ok f : forall r, is_bytes r -> 0 < be_num r -> hd 0 r < 128 -> (length r <= S f)%nat ->
  exists k R, der_strip f r = Ok R /\ r = zeros k ++ R /\ der_int (be_num r) R.
Proof.
  induction f as [|f IH]; intros r Br Pr Hr Lr; cbn [der_strip].
  - exists O, r. split; [reflexivity|]. split; [reflexivity|]. destruct r as [|x [|y r]]; cbn [length] in Lr; [discriminate Pr| |lia].
    split; [exact Br|]. split; [discriminate|]. split; [reflexivity|]. split; [exact Hr|]. intros x' y' l E. discriminate.
  - destruct r as [|x r]; [discriminate Pr|]. cbn [hd] in Hr. change (idx (x :: r) 0) with (Ok x). cbn [bind]. destruct (x =? 0) eqn:X.
    + apply Z.eqb_eq in X. subst x. destruct r as [|y r]; [discriminate Pr|]. change (idx (0 :: y :: r) 1) with (Ok y). cbn [bind].
      assert (By : is_byte y) by (inversion Br as [|? ? _ B2]; inversion B2; assumption). rewrite high_bit by exact By. destruct (128 <=? y) eqn:Y; cbn [negb].
      * exists O, (0 :: y :: r). split; [reflexivity|]. split; [reflexivity|]. split; [exact Br|]. split; [discriminate|]. split; [reflexivity|]. split; [cbn; lia|].
        intros x' y' l E _. injection E as <- <- <-. lia.
      * rewrite slice_from_cons. cbn [bind]. inversion Br; subst.
        destruct (IH (y :: r)) as (k & R & E & Ez & D); [assumption|exact Pr|cbn [hd]; lia|cbn [length] in *; lia|].
        exists (S k), R. split; [exact E|]. split; [rewrite Ez; reflexivity|exact D].
    + apply Z.eqb_neq in X. exists O, (x :: r). split; [reflexivity|]. split; [reflexivity|]. split; [exact Br|]. split; [discriminate|]. split; [reflexivity|]. split; [exact Hr|].
      intros x' y' l E Z0. injection E as <- E. contradiction.
Qed.
Lemma be_num_pos_ne r : 0 < be_num r -> r <> [].
Proof. intros H ->. discriminate H. Qed.
Lemma der_trim_ok r : is_bytes r -> 0 < be_num r -> length r = 32%nat ->
  exists R, der_trim r = Ok R /\ der_int (be_num r) R /\ (length R <= 33)%nat /\ taken R = r.
Proof.
  intros Br Pr Lr. unfold der_trim. destruct r as [|x r]; [discriminate|]. change (idx (x :: r) 0) with (Ok x). cbn [bind].
  assert (Bx : is_byte x) by (inversion Br; assumption). rewrite high_bit by exact Bx. destruct (128 <=? x) eqn:X.
  - exists (0 :: x :: r). split; [reflexivity|]. split; [|split; [cbn [length] in *; lia|]].
    + split; [constructor; [unfold is_byte; lia|exact Br]|]. split; [discriminate|]. split; [reflexivity|]. split; [cbn; lia|]. intros a b l E _. injection E as <- <- <-. lia.
    + unfold taken. cbn [length] in *. replace (S (S (length r)) =? 33)%nat with true by lia. replace (32 - S (S (length r)))%nat with O by lia. reflexivity.
  - destruct (der_strip_ok 32 (x :: r) Br Pr ltac:(cbn [hd]; lia) ltac:(lia)) as (k & R & E & Ez & D). exists R. split; [exact E|]. split; [exact D|].
    assert (L : (k + length R = 32)%nat) by (rewrite Ez, app_length in Lr; unfold zeros in Lr; rewrite repeat_length in Lr; exact Lr).
    split; [lia|]. unfold taken. replace (length R =? 33)%nat with false by lia. replace (32 - length R)%nat with k by lia. symmetry. exact Ez.
Qed.
Lemma der_strip_zero f : forall n, (1 <= n <= f)%nat -> der_strip f (zeros n) = Panic.
Proof.
  induction f as [|f IH]; intros n Hn; [lia|]. cbn [der_strip]. destruct n as [|[|n]]; [lia|reflexivity|].
  change (zeros (S (S n))) with (0 :: zeros (S n)). change (idx (0 :: zeros (S n)) 0) with (Ok 0). cbn [bind Z.eqb].
  change (idx (0 :: zeros (S n)) 1) with (Ok 0). cbn [bind]. change (Z.land 0 128 =? 128) with false. cbn [negb]. rewrite slice_from_cons. cbn [bind]. apply IH. lia.
Qed.
Lemma der_trim_zero r : is_bytes r -> be_num r = 0 -> length r = 32%nat -> der_trim r = Panic.
Proof.
  intros Br Z Lr. assert (E : r = zeros 32).
  { apply be_num_inj; [exact Br|apply is_bytes_zeros|unfold zeros; rewrite repeat_length; exact Lr|rewrite Z; reflexivity]. }
  rewrite E. reflexivity.
Qed.
Lemma der_wrap_eq R S t : (length R <= 33)%nat -> (length S <= 33)%nat -> der_wrap R S t = sig_script R S t.
Proof.
  intros LR LS. unfold der_wrap, sig_script. cbv zeta. rewrite !zlen_cons, !zlen_app, !zlen_cons. rewrite !zlen_app, !zlen_cons. change (zlen (@nil Z)) with 0.
  assert (U : forall x, 0 <= x < 256 -> u8 x = x) by (intros; unfold u8; apply Z.mod_small; assumption).
  pose proof (zlen_nonneg R). pose proof (zlen_nonneg S). unfold zlen in *. rewrite !U by (rewrite ?U by lia; lia).
  cbn [app]. rewrite <- !app_assoc. cbn [app]. repeat (f_equal; try lia).
Qed.

(** One integer of the decoder. *)
Lemma room_ok {A} script i n (k : res A) : i + n <= zlen script -> room script i n k = k.
Proof. intros H. unfold room. replace (zlen script <? i + n) with false by lia. reflexivity. Qed.
Lemma read_int_ok pre R post : is_bytes R -> loose_int R ->
  read_int (pre ++ [2; zlen R] ++ R ++ post) (zlen pre) = Ok (taken R, zlen R, zlen pre + 2 + zlen R).
Proof.
  intros Bs [LR C]. assert (ZL : zlen (pre ++ [2; zlen R] ++ R ++ post) = zlen pre + 2 + zlen R + zlen post) by (rewrite !zlen_app; change (zlen [2; zlen R]) with 2; lia).
  pose proof (zlen_nonneg R). pose proof (zlen_nonneg post). unfold read_int. rewrite room_ok by lia. cbn [app]. rewrite idx_mid by reflexivity. cbn [bind Z.eqb Pos.eqb negb].
  rewrite room_ok by (cbn [app] in ZL; lia).
  replace (pre ++ 2 :: zlen R :: R ++ post) with ((pre ++ [2]) ++ zlen R :: R ++ post) by (rewrite <- app_assoc; reflexivity).
  rewrite idx_mid by (rewrite zlen_app; reflexivity). cbn [bind]. cbv zeta. replace (33 <? zlen R) with false by (unfold zlen; lia).
  set (P := pre ++ [2]). assert (ZP : zlen P = zlen pre + 1) by (unfold P; rewrite zlen_app; reflexivity). clearbody P.
  assert (BAD : (if zlen R =? 33 then room (P ++ zlen R :: R ++ post) (zlen pre + 1 + 1) 2
      (a <- idx (P ++ zlen R :: R ++ post) (zlen pre + 1 + 1) ;; b <- idx (P ++ zlen R :: R ++ post) (zlen pre + 1 + 1 + 1) ;; Ok (negb (a =? 0) && negb (Z.land b 128 =? 128)))
      else Ok false) = Ok false).
  { destruct (zlen R =? 33) eqn:E; [|reflexivity]. destruct R as [|x [|y R]]; [discriminate|discriminate|].
    replace (P ++ zlen (x :: y :: R) :: (x :: y :: R) ++ post) with ((P ++ [zlen (x :: y :: R)]) ++ x :: y :: R ++ post) by (rewrite <- app_assoc; reflexivity).
    rewrite room_ok by (rewrite !zlen_app, !zlen_cons, zlen_app; change (zlen (@nil Z)) with 0; pose proof (zlen_nonneg R); lia).
    rewrite idx_mid by (rewrite zlen_app; change (zlen [zlen (x :: y :: R)]) with 1; lia). cbn [bind].
    replace ((P ++ [zlen (x :: y :: R)]) ++ x :: y :: R ++ post) with (((P ++ [zlen (x :: y :: R)]) ++ [x]) ++ y :: R ++ post) by (rewrite <- app_assoc; reflexivity).
    rewrite idx_mid by (rewrite !zlen_app; change (zlen [zlen (x :: y :: R)]) with 1; change (zlen [x]) with 1; lia). cbn [bind].
    rewrite high_bit by (apply Forall_cons_iff in Bs as [_ Bs]; apply Forall_cons_iff in Bs as [By _]; exact By).
    destruct (C ltac:(unfold zlen in E; lia) x y R eq_refl) as [-> | Y]; [reflexivity|]. replace (128 <=? y) with true by lia. rewrite andb_false_r. reflexivity. }
  rewrite BAD. cbn [bind].
  replace (P ++ zlen R :: R ++ post) with ((P ++ [zlen R]) ++ R ++ post) by (rewrite <- app_assoc; reflexivity).
  assert (ZQ : zlen (P ++ [zlen R]) = zlen pre + 1 + 1) by (rewrite zlen_app; change (zlen [zlen R]) with 1; lia).
  rewrite room_ok by (rewrite !zlen_app in *; lia). rewrite slice_mid by lia. cbn [bind]. unfold taken.
  replace (Z.to_nat (32 - zlen R)) with (32 - length R)%nat by (unfold zlen; lia).
  replace (length R =? 33)%nat with (zlen R =? 33) by (unfold zlen; lia).
  destruct (zlen R =? 33) eqn:E.
  - destruct R as [|x R]; [discriminate|]. rewrite slice_from_cons. cbn [bind tl]. do 2 f_equal. lia.
  - cbn [bind]. do 2 f_equal. lia.
Qed.
(** Shape of the input whenever it succeeds; it never panics. *)
Lemma read_int_inv pre rest : is_bytes rest ->
  read_int (pre ++ rest) (zlen pre) = Err \/
  exists R post, rest = [2; zlen R] ++ R ++ post /\ loose_int R /\ read_int (pre ++ rest) (zlen pre) = Ok (taken R, zlen R, zlen pre + 2 + zlen R).
Proof.
  intros Bs. destruct rest as [|tag rest].
  { left. unfold read_int, room. rewrite app_nil_r. replace (zlen pre <? zlen pre + 1) with true by lia. reflexivity. }
  apply Forall_cons_iff in Bs as [Bt Bs]. destruct (Z.eq_dec tag 2) as [-> | Nt].
  2: { left. unfold read_int. rewrite room_ok by (rewrite zlen_app, zlen_cons; pose proof (zlen_nonneg rest); lia). rewrite idx_mid by reflexivity. cbn [bind].
       replace (tag =? 2) with false by lia. reflexivity. }
  destruct rest as [|rl rest].
  { left. unfold read_int. rewrite room_ok by (rewrite zlen_app; change (zlen [2]) with 1; lia). rewrite idx_mid by reflexivity. cbn [bind Z.eqb Pos.eqb negb].
    unfold room. rewrite zlen_app. change (zlen [2]) with 1. replace (zlen pre + 1 <? zlen pre + 1 + 1) with true by lia. reflexivity. }
  apply Forall_cons_iff in Bs as [Brl Bs]. unfold is_byte in Brl.
  assert (HEAD : forall k : Z -> res (bytes * Z * Z), True). { auto. } clear HEAD.
  destruct (Z_lt_ge_dec 33 rl) as [G|G].
  { left. unfold read_int. rewrite room_ok by (rewrite zlen_app, !zlen_cons; pose proof (zlen_nonneg rest); lia). rewrite idx_mid by reflexivity. cbn [bind Z.eqb Pos.eqb negb].
    rewrite room_ok by (rewrite zlen_app, !zlen_cons; pose proof (zlen_nonneg rest); lia).
    replace (pre ++ 2 :: rl :: rest) with ((pre ++ [2]) ++ rl :: rest) by (rewrite <- app_assoc; reflexivity). rewrite idx_mid by (rewrite zlen_app; reflexivity). cbn [bind]. cbv zeta.
    replace (33 <? rl) with true by lia. reflexivity. }
  destruct (Z_lt_ge_dec (zlen rest) rl) as [Sh|Sh].
  { left. unfold read_int. rewrite room_ok by (rewrite zlen_app, !zlen_cons; pose proof (zlen_nonneg rest); lia). rewrite idx_mid by reflexivity. cbn [bind Z.eqb Pos.eqb negb].
    rewrite room_ok by (rewrite zlen_app, !zlen_cons; pose proof (zlen_nonneg rest); lia).
    replace (pre ++ 2 :: rl :: rest) with ((pre ++ [2]) ++ rl :: rest) by (rewrite <- app_assoc; reflexivity). rewrite idx_mid by (rewrite zlen_app; reflexivity). cbn [bind]. cbv zeta.
    replace (33 <? rl) with false by lia.
    assert (R3 : forall b : bool, (if b then Err else room ((pre ++ [2]) ++ rl :: rest) (zlen pre + 1 + 1) rl (d <- slice ((pre ++ [2]) ++ rl :: rest) (zlen pre + 1 + 1) (zlen pre + 1 + 1 + rl);;
         d0 <- (if rl =? 33 then slice_from d 1 else Ok d);; Ok (zeros (Z.to_nat (32 - rl)) ++ d0, rl, zlen pre + 1 + 1 + rl))) = @Err (bytes * Z * Z)).
    { intros [|]; [reflexivity|]. unfold room. rewrite !zlen_app, !zlen_cons. change (zlen (@nil Z)) with 0. match goal with |- (if ?c then _ else _) = _ => destruct c eqn:Q; [reflexivity|exfalso; lia] end. }
    destruct (rl =? 33) eqn:E; [|cbn [bind]; apply (R3 false)].
    unfold room at 1. destruct (zlen ((pre ++ [2]) ++ rl :: rest) <? zlen pre + 1 + 1 + 2) eqn:Q; [reflexivity|].
    destruct (idx_total ((pre ++ [2]) ++ rl :: rest) (zlen pre + 1 + 1) ltac:(pose proof (zlen_nonneg pre); lia)) as [a ->]. cbn [bind].
    destruct (idx_total ((pre ++ [2]) ++ rl :: rest) (zlen pre + 1 + 1 + 1) ltac:(pose proof (zlen_nonneg pre); lia)) as [b ->]. cbn [bind]. apply R3. }
  (* enough data *)
  set (R := firstn (Z.to_nat rl) rest). set (post := skipn (Z.to_nat rl) rest).
  assert (ER : rest = R ++ post) by (symmetry; apply firstn_skipn).
  assert (ZR : zlen R = rl) by (unfold R, zlen in *; rewrite firstn_length; lia). clearbody R post. subst rest.
  apply is_bytes_app in Bs as [BR Bp].
  destruct (Z.eq_dec rl 33) as [E33|N33].
  - destruct R as [|x [|y R]]; [subst rl; discriminate|subst rl; discriminate|].
    apply Forall_cons_iff in BR as [Bx BR']. apply Forall_cons_iff in BR' as [By BR''].
    destruct (Z.eq_dec x 0) as [X|X]; [|destruct (Z_lt_ge_dec y 128) as [Y|Y]].
    + right. exists (x :: y :: R), post. assert (LI : loose_int (x :: y :: R)). { split; [unfold zlen in ZR; lia|]. intros _ a b l Q. injection Q as <- <- <-. left. exact X. }
      rewrite ZR. split; [reflexivity|]. split; [exact LI|]. pose proof (read_int_ok pre (x :: y :: R) post) as Q. rewrite ZR in Q. apply Q; [constructor; [exact Bx|constructor; assumption]|exact LI].
    + left. unfold read_int. rewrite room_ok by (rewrite zlen_app, !zlen_cons; pose proof (zlen_nonneg ((x :: y :: R) ++ post)); lia). rewrite idx_mid by reflexivity. cbn [bind Z.eqb Pos.eqb negb].
      rewrite room_ok by (rewrite zlen_app, !zlen_cons; pose proof (zlen_nonneg ((x :: y :: R) ++ post)); lia).
      replace (pre ++ 2 :: rl :: (x :: y :: R) ++ post) with ((pre ++ [2]) ++ rl :: (x :: y :: R) ++ post) by (rewrite <- app_assoc; reflexivity). rewrite idx_mid by (rewrite zlen_app; reflexivity). cbn [bind]. cbv zeta.
      subst rl. rewrite E33. change (33 <? 33) with false. change (33 =? 33) with true. cbv iota.
      replace ((pre ++ [2]) ++ 33 :: (x :: y :: R) ++ post) with ((pre ++ [2; 33]) ++ x :: y :: R ++ post) by (rewrite <- !app_assoc; reflexivity).
      rewrite room_ok by (rewrite !zlen_app, !zlen_cons, zlen_app; change (zlen (@nil Z)) with 0; pose proof (zlen_nonneg R); pose proof (zlen_nonneg post); lia).
      rewrite idx_mid by (rewrite zlen_app; change (zlen [2; 33]) with 2; lia). cbn [bind].
      replace ((pre ++ [2; 33]) ++ x :: y :: R ++ post) with ((pre ++ [2; 33; x]) ++ y :: R ++ post) by (rewrite <- !app_assoc; reflexivity).
      rewrite idx_mid by (rewrite zlen_app; change (zlen [2; 33; x]) with 3; lia). cbn [bind]. rewrite high_bit by exact By.
      replace (x =? 0) with false by lia. replace (128 <=? y) with false by lia. reflexivity.
    + right. exists (x :: y :: R), post. assert (LI : loose_int (x :: y :: R)). { split; [unfold zlen in ZR; lia|]. intros _ a b l Q. injection Q as <- <- <-. right. lia. }
      rewrite ZR. split; [reflexivity|]. split; [exact LI|]. pose proof (read_int_ok pre (x :: y :: R) post) as Q. rewrite ZR in Q. apply Q; [constructor; [exact Bx|constructor; assumption]|exact LI].
  - right. exists R, post. assert (LI : loose_int R). { split; [unfold zlen in ZR; lia|]. intros Q. unfold zlen in ZR. lia. }
    rewrite ZR. split; [reflexivity|]. split; [exact LI|]. pose proof (read_int_ok pre R post BR LI) as Q. rewrite ZR in Q. exact Q.
Qed.

Lemma u8_small x : 0 <= x < 256 -> u8 x = x.
Proof. intros H. unfold u8. apply Z.mod_small. exact H. Qed.
Lemma loose_zlen R : loose_int R -> 0 <= zlen R <= 33.
Proof. intros [L _]. unfold zlen. lia. Qed.

(** Shape of every script the two decoders look into. *)
Lemma read_both a c rest : is_bytes rest ->
  let script := [a; 48; c] ++ rest in
  ('(r, rLen, i) <- read_int script 3 ;; '(s, sLen, j) <- read_int script i ;; Ok (r, rLen, s, sLen, j)) = Err \/
  exists R S post, rest = [2; zlen R] ++ R ++ [2; zlen S] ++ S ++ post /\ loose_int R /\ loose_int S /\
    read_int script 3 = Ok (taken R, zlen R, 5 + zlen R) /\ read_int script (5 + zlen R) = Ok (taken S, zlen S, 7 + zlen R + zlen S).
Proof.
  intros Br script. destruct (read_int_inv [a; 48; c] rest Br) as [E | (R & p1 & E1 & L1 & Q1)]; change (zlen [a; 48; c]) with 3 in *.
  { left. unfold script. rewrite E. reflexivity. }
  fold script in Q1. replace (3 + 2 + zlen R) with (5 + zlen R) in Q1 by lia.
  assert (Bp1 : is_bytes p1) by (rewrite E1 in Br; apply is_bytes_app in Br as [_ Br]; apply is_bytes_app in Br as [_ Br]; exact Br).
  destruct (read_int_inv ([a; 48; c] ++ [2; zlen R] ++ R) p1 Bp1) as [E | (S & p2 & E2 & L2 & Q2)].
  - left. rewrite Q1. cbn [bind]. replace (([a; 48; c] ++ [2; zlen R] ++ R) ++ p1) with script in E by (unfold script; rewrite E1, <- !app_assoc; reflexivity).
    replace (zlen ([a; 48; c] ++ [2; zlen R] ++ R)) with (5 + zlen R) in E by (rewrite !zlen_app; change (zlen [a; 48; c]) with 3; change (zlen [2; zlen R]) with 2; lia). rewrite E. reflexivity.
  - right. exists R, S, p2. rewrite E1, E2. split; [reflexivity|]. split; [exact L1|]. split; [exact L2|]. split; [exact Q1|].
    replace (([a; 48; c] ++ [2; zlen R] ++ R) ++ p1) with script in Q2 by (unfold script; rewrite E1, <- !app_assoc; reflexivity).
    replace (zlen ([a; 48; c] ++ [2; zlen R] ++ R)) with (5 + zlen R) in Q2 by (rewrite !zlen_app; change (zlen [a; 48; c]) with 3; change (zlen [2; zlen R]) with 2; lia). rewrite Q2. do 2 f_equal. lia.
Qed.
Lemma app_zlen1 (x : Z) l : zlen (x :: l) = 1 + zlen l.
Proof. apply zlen_cons. Qed.

Lemma room_err {A} script i n (k : res A) : zlen script < i + n -> room script i n k = Err.
Proof. intros H. unfold room. replace (zlen script <? i + n) with true by lia. reflexivity. Qed.

Lemma taken_length R : (length R <= 33)%nat -> length (taken R) = 32%nat.
Proof.
  intros L. unfold taken. rewrite app_length. unfold zeros. rewrite repeat_length. destruct (length R =? 33)%nat eqn:E; [destruct R as [|x R]; [discriminate|]; cbn [tl length] in *; lia|lia].
Qed.
Lemma overwritten_0 half rest : length half = 32%nat -> overwritten 0 half rest = rest.
Proof. intros L. unfold overwritten. rewrite skipn_all2 by lia. apply firstn_all. Qed.
Lemma overwritten_len k half rest : length half = 32%nat -> (k <= 32)%nat -> length (overwritten k half rest) = length rest.
Proof. intros L K. unfold overwritten. rewrite firstn_length, app_length, !skipn_length. lia. Qed.
Lemma left_after_len R S rest : (length S <= 33)%nat -> length (left_after R S rest) = length rest.
Proof. intros L. apply overwritten_len; [apply taken_length; exact L|]. destruct (32 <=? length R)%nat; lia. Qed.
Lemma append_in_left P R S rest : (length S <= 33)%nat -> exists M, zlen M = 2 + zlen S /\
  append_in (P ++ [2; zlen S] ++ S ++ rest) (zlen R) (zlen P) (taken S) = P ++ M ++ left_after R S rest.
Proof.
  intros L. unfold append_in, left_after. pose proof (taken_length S L) as LT. replace (32 <=? length R)%nat with (32 <=? zlen R) by (unfold zlen; lia).
  assert (LL : length (P ++ [2; zlen S] ++ S ++ rest) = (length P + (2 + length S + length rest))%nat) by (rewrite !app_length; cbn [length]; lia).
  destruct (32 <=? zlen R) eqn:E.
  - rewrite (firstn_app (Z.to_nat (zlen P)) P), (firstn_all2 P) by (unfold zlen; lia).
    replace (Z.to_nat (zlen P) - length P)%nat with O by (unfold zlen; lia). rewrite firstn_O, app_nil_r.
    replace (skipn (Z.to_nat (zlen P + 32)) (P ++ [2; zlen S] ++ S ++ rest)) with (skipn 32 ([2; zlen S] ++ S ++ rest)).
    2: { rewrite (skipn_app _ P), (skipn_all2 P) by (unfold zlen; lia). cbn [app]. f_equal. unfold zlen. lia. }
    rewrite LL, firstn_app_2.
    change (skipn 32 ([2; zlen S] ++ S ++ rest)) with (skipn 30 (S ++ rest)). rewrite skipn_app.
    destruct (length S <=? 29)%nat eqn:S29.
    + unfold overwritten. exists (firstn (2 + length S) (taken S)). assert (LM : length (firstn (2 + length S) (taken S)) = (2 + length S)%nat) by (rewrite firstn_length; lia).
      split; [unfold zlen; rewrite LM; lia|]. f_equal. rewrite (skipn_all2 S) by lia. cbn [app].
      replace (32 - (30 - length S))%nat with (2 + length S)%nat by lia. rewrite <- (firstn_skipn (2 + length S) (taken S)) at 1. rewrite <- app_assoc. rewrite <- LM at 1. apply firstn_app_2.
    + replace (30 - length S)%nat with O by lia. rewrite overwritten_0 by exact LT. cbn [skipn]. exists (taken S ++ skipn 30 S). split; [rewrite zlen_app; unfold zlen; rewrite LT, skipn_length; lia|].
      f_equal. rewrite <- app_assoc. apply firstn_all2. rewrite !app_length, LT, skipn_length. lia.
  - exists ([2; zlen S] ++ S). split; [rewrite zlen_app; reflexivity|]. rewrite <- !app_assoc. do 3 f_equal. symmetry. apply overwritten_0. exact LT.
Qed.
Lemma sig_head_len R S : zlen (sig_head R S) = zlen R + zlen S + 7.
Proof. unfold sig_head. rewrite !zlen_app, !zlen_cons. change (zlen (@nil Z)) with 0. lia. Qed.
Lemma sig_script_head R S t p : sig_script R S t ++ p = sig_head R S ++ t :: p.
Proof. unfold sig_script, sig_head. rewrite <- !app_assoc. reflexivity. Qed.
Lemma sig_script_head0 R S t : sig_script R S t = sig_head R S ++ [t].
Proof. rewrite <- sig_script_head, app_nil_r. reflexivity. Qed.
Lemma sig_script_len R S t : zlen (sig_script R S t) = zlen R + zlen S + 8.
Proof. unfold sig_script. rewrite !zlen_app, !zlen_cons. change (zlen (@nil Z)) with 0. lia. Qed.
(** The script determines its parts. *)
Lemma sig_head_inj R S p R' S' p' : sig_head R S ++ p = sig_head R' S' ++ p' -> R = R' /\ S = S' /\ p = p'.
Proof.
  unfold sig_head. intros E. cbn [app] in E. injection E as _ _ LR E.
  assert (HR : R = R').
  { apply (f_equal (firstn (length R))) in E. rewrite <- !app_assoc in E. rewrite firstn_app, Nat.sub_diag, firstn_all, firstn_O, app_nil_r in E.
    replace (length R) with (length R') in E by (unfold zlen in LR; lia). rewrite firstn_app, Nat.sub_diag, firstn_all, firstn_O, app_nil_r in E. exact E. }
  subst R'. rewrite <- !app_assoc in E. apply app_inv_head in E. cbn [app] in E. injection E as LS E.
  assert (HS : S = S').
  { apply (f_equal (firstn (length S))) in E. rewrite firstn_app, Nat.sub_diag, firstn_all, firstn_O, app_nil_r in E.
    replace (length S) with (length S') in E by (unfold zlen in LS; lia). rewrite firstn_app, Nat.sub_diag, firstn_all, firstn_O, app_nil_r in E. exact E. }
  subst S'. apply app_inv_head in E. subst p'. split; [reflexivity|]. split; reflexivity.
Qed.
Lemma sig_script_inj R S t p R' S' t' p' : sig_script R S t ++ p = sig_script R' S' t' ++ p' -> R = R' /\ S = S' /\ t = t' /\ p = p'.
Proof.
  rewrite !sig_script_head. intros E. destruct (sig_head_inj _ _ _ _ _ _ E) as (-> & -> & Q). injection Q as -> ->. split; [reflexivity|]. split; [reflexivity|]. split; reflexivity.
Qed.
(** What the decoders find after the two integers. *)
Lemma arr_parts R S rest tail : loose_int S -> exists Q, zlen Q = zlen R + zlen S + 7 /\
  append_in ((sig_head R S ++ rest) ++ tail) (zlen R) (5 + zlen R) (taken S) = Q ++ left_after R S (rest ++ tail).
Proof.
  intros [L _]. set (P := [zlen R + zlen S + 7; 0x30; zlen R + zlen S + 4] ++ [2; zlen R] ++ R).
  assert (ZP : zlen P = 5 + zlen R) by (unfold P; rewrite !zlen_app, !zlen_cons; change (zlen (@nil Z)) with 0; lia).
  destruct (append_in_left P R S (rest ++ tail) L) as (M & ZM & E). exists (P ++ M). split; [rewrite zlen_app; lia|].
  rewrite <- ZP, <- (app_assoc P M), <- E. f_equal. unfold sig_head, P. rewrite <- !app_assoc. reflexivity.
Qed.
Lemma decode_sig_ok R S t tail : is_bytes R -> is_bytes S -> loose_int R -> loose_int S ->
  decode_sig (sig_script R S t) tail = Ok (taken R ++ taken S, hd 0 (left_after R S (t :: tail)), tl (left_after R S (t :: tail))).
Proof.
  intros BR BS L1 L2. pose proof (loose_zlen R L1) as Z1. pose proof (loose_zlen S L2) as Z2.
  assert (LS : zlen (sig_script R S t) = zlen R + zlen S + 8) by apply sig_script_len.
  unfold decode_sig. replace (zlen (sig_script R S t) =? 0) with false by lia.
  change (idx (sig_script R S t) 0) with (Ok (zlen R + zlen S + 7)). cbn [bind]. replace (zlen R + zlen S + 7 + 1 =? zlen (sig_script R S t)) with true by lia. cbn [negb].
  rewrite room_ok by lia. change (idx (sig_script R S t) 1) with (Ok 48). cbn [bind]. change (48 =? 48) with true. cbn [negb].
  rewrite room_ok by lia. change (idx (sig_script R S t) 2) with (Ok (zlen R + zlen S + 4)). cbn [bind].
  set (P := [zlen R + zlen S + 7; 48; zlen R + zlen S + 4]).
  pose proof (read_int_ok P R ([2; zlen S] ++ S ++ [t]) BR L1) as Q1. change (zlen P) with 3 in Q1. change (P ++ [2; zlen R] ++ R ++ [2; zlen S] ++ S ++ [t]) with (sig_script R S t) in Q1. rewrite Q1. cbn [bind].
  pose proof (read_int_ok (P ++ [2; zlen R] ++ R) S [t] BS L2) as Q2. rewrite <- !app_assoc in Q2. change (P ++ [2; zlen R] ++ R ++ [2; zlen S] ++ S ++ [t]) with (sig_script R S t) in Q2.
  replace (zlen (P ++ [2; zlen R] ++ R)) with (3 + 2 + zlen R) in Q2 by (rewrite !zlen_app; change (zlen P) with 3; change (zlen [2; zlen R]) with 2; lia). rewrite Q2. cbn [bind]. cbv zeta.
  rewrite room_ok by lia.
  destruct (arr_parts R S [t] tail L2) as (Q & ZQ & EA). rewrite <- sig_script_head0 in EA. change (3 + 2 + zlen R) with (5 + zlen R). rewrite EA. clear EA. cbn [app].
  pose proof (left_after_len R S (t :: tail) ltac:(apply L2)) as LA. destruct (left_after R S (t :: tail)) as [|t' tail'] eqn:ET; [discriminate LA|]. cbn [hd tl].
  rewrite idx_mid by lia. cbn [bind]. rewrite !u8_small by lia. rewrite !Z.eqb_refl. replace (zlen R + zlen S + 4 + 3 =? zlen R + zlen S + 7) with true by lia. cbn [negb orb].
  do 2 f_equal. replace (length (sig_script R S t)) with (length (Q ++ [t'])) by (rewrite app_length; unfold zlen in *; cbn [length]; lia).
  change (t' :: tail') with ([t'] ++ tail'). rewrite app_assoc. rewrite skipn_app, skipn_all, Nat.sub_diag. reflexivity.
Qed.
Lemma decode_sig_cases script tail : is_bytes script ->
  decode_sig script tail = Err \/ exists R S t, loose_int R /\ loose_int S /\ is_bytes R /\ is_bytes S /\ script = sig_script R S t.
Proof.
  intros B. destruct script as [|a script]; [left; reflexivity|].
  unfold decode_sig. replace (zlen (a :: script) =? 0) with false by (rewrite zlen_cons; pose proof (zlen_nonneg script); lia). change (idx (a :: script) 0) with (Ok a). cbn [bind].
  destruct (a + 1 =? zlen (a :: script)) eqn:LA; cbn [negb]; [|left; reflexivity].
  destruct script as [|b script]; [left; apply room_err; change (zlen [a]) with 1; lia|].
  rewrite room_ok by (rewrite !zlen_cons; pose proof (zlen_nonneg script); lia). change (idx (a :: b :: script) 1) with (Ok b). cbn [bind].
  destruct (b =? 48) eqn:EB; cbn [negb]; [|left; reflexivity]. apply Z.eqb_eq in EB. subst b.
  destruct script as [|c rest]; [left; apply room_err; change (zlen [a; 48]) with 2; lia|].
  rewrite room_ok by (rewrite !zlen_cons; pose proof (zlen_nonneg rest); lia). change (idx (a :: 48 :: c :: rest) 2) with (Ok c). cbn [bind].
  assert (Br : is_bytes rest) by (change (is_bytes ([a; 48; c] ++ rest)) in B; apply is_bytes_app in B as [_ B]; exact B).
  assert (Bc : 0 <= a < 256 /\ 0 <= c < 256) by (apply Forall_cons_iff in B as [B1 B]; apply Forall_cons_iff in B as [_ B]; apply Forall_cons_iff in B as [B3 _]; split; assumption).
  change (a :: 48 :: c :: rest) with ([a; 48; c] ++ rest) in *.
  destruct (read_both a c rest Br) as [E | (R & S & post & Er & L1 & L2 & Q1 & Q2)].
  { left. destruct (read_int ([a; 48; c] ++ rest) 3) as [[[r rl] i]| |]; cbn [bind] in *; [|reflexivity|discriminate E].
    destruct (read_int ([a; 48; c] ++ rest) i) as [[[s sl] j]| |]; cbn [bind] in *; [discriminate E|reflexivity|discriminate E]. }
  rewrite Q1. cbn [bind]. rewrite Q2. cbn [bind]. cbv zeta.
  pose proof (loose_zlen R L1) as Z1. pose proof (loose_zlen S L2) as Z2.
  assert (ZL : zlen ([a; 48; c] ++ rest) = 7 + zlen R + zlen S + zlen post).
  { rewrite Er, !zlen_app, !zlen_cons. change (zlen (@nil Z)) with 0. lia. }
  destruct post as [|t post]; [left; apply room_err; rewrite ZL; change (zlen (@nil Z)) with 0; lia|].
  rewrite zlen_cons in ZL. pose proof (zlen_nonneg post). rewrite room_ok by lia.
  destruct (append_in_left ([a; 48; c] ++ [2; zlen R] ++ R) R S ((t :: post) ++ tail) ltac:(apply L2)) as (M & ZM & EM).
  replace (zlen ([a; 48; c] ++ [2; zlen R] ++ R)) with (5 + zlen R) in EM by (rewrite !zlen_app, !zlen_cons; change (zlen (@nil Z)) with 0; lia).
  replace (([a; 48; c] ++ [2; zlen R] ++ R) ++ [2; zlen S] ++ S ++ (t :: post) ++ tail) with (([a; 48; c] ++ rest) ++ tail) in EM by (rewrite Er, <- !app_assoc; reflexivity).
  rewrite EM. clear EM. pose proof (left_after_len R S ((t :: post) ++ tail) ltac:(apply L2)) as LA'.
  destruct (left_after R S ((t :: post) ++ tail)) as [|t' tl'] eqn:ET; [discriminate LA'|]. rewrite app_assoc.
  rewrite idx_mid by (rewrite !zlen_app; change (zlen [a; 48; c]) with 3; change (zlen [2; zlen R]) with 2; lia). cbn [bind].
  rewrite (u8_small (zlen R + zlen S + 4)) by lia.
  destruct (zlen R + zlen S + 4 =? c) eqn:EC; cbn [negb orb]; [|left; reflexivity]. apply Z.eqb_eq in EC. rewrite (u8_small (c + 3)) by lia.
  destruct (c + 3 =? a) eqn:EA; cbn [negb]; [|left; reflexivity]. apply Z.eqb_eq in EA.
  right. exists R, S, t. split; [exact L1|]. split; [exact L2|].
  assert (post = []) by (destruct post; [reflexivity|rewrite zlen_cons in ZL; pose proof (zlen_nonneg post); lia]). subst post.
  rewrite Er in Br. apply is_bytes_app in Br as [_ Br]. apply is_bytes_app in Br as [BR Br]. apply is_bytes_app in Br as [_ Br]. apply is_bytes_app in Br as [BS _].
  split; [exact BR|]. split; [exact BS|].
  unfold sig_script. rewrite Er. replace a with (zlen R + zlen S + 7) by lia. rewrite <- EC. reflexivity.
Qed.
(** The outcome for the bytes that stand where the type, the key length and the key belong. *)
Definition key_part (sig rest : bytes) : res (bytes * bytes * Z) :=
  match rest with t :: pl :: pub => if pl =? 33 then Ok (sig, pub, t) else Err | _ => Err end.
Lemma decode_script_ok R S rest : is_bytes R -> is_bytes S -> loose_int R -> loose_int S -> length rest = 35%nat ->
  decode_script (sig_head R S ++ rest) = key_part (taken R ++ taken S) (left_after R S rest).
Proof.
  intros BR BS L1 L2 LP. pose proof (loose_zlen R L1) as Z1. pose proof (loose_zlen S L2) as Z2.
  set (sc := sig_head R S ++ rest).
  assert (LS : zlen sc = zlen R + zlen S + 42) by (unfold sc; rewrite zlen_app, sig_head_len; unfold zlen; lia).
  set (P := [zlen R + zlen S + 7; 48; zlen R + zlen S + 4]).
  assert (ES : sc = P ++ [2; zlen R] ++ R ++ [2; zlen S] ++ S ++ rest) by (unfold sc, sig_head, P; rewrite <- !app_assoc; reflexivity).
  unfold decode_script. replace (zlen sc =? 0) with false by lia.
  replace (idx sc 0) with (Ok (zlen R + zlen S + 7)) by (rewrite ES; reflexivity). cbn [bind].
  rewrite room_ok by lia. replace (idx sc 1) with (Ok 48) by (rewrite ES; reflexivity). cbn [bind]. change (48 =? 48) with true. cbn [negb].
  rewrite room_ok by lia. replace (idx sc 2) with (Ok (zlen R + zlen S + 4)) by (rewrite ES; reflexivity). cbn [bind].
  pose proof (read_int_ok P R ([2; zlen S] ++ S ++ rest) BR L1) as Q1. change (zlen P) with 3 in Q1. rewrite <- ES in Q1. rewrite Q1. cbn [bind].
  pose proof (read_int_ok (P ++ [2; zlen R] ++ R) S rest BS L2) as Q2. rewrite <- !app_assoc in Q2. rewrite <- ES in Q2.
  replace (zlen (P ++ [2; zlen R] ++ R)) with (3 + 2 + zlen R) in Q2 by (rewrite !zlen_app; change (zlen P) with 3; change (zlen [2; zlen R]) with 2; lia). rewrite Q2. cbn [bind]. cbv zeta.
  destruct (arr_parts R S rest [] L2) as (Q & ZQ & EA). rewrite !app_nil_r in EA. fold sc in EA. change (3 + 2 + zlen R) with (5 + zlen R). rewrite EA. clear EA.
  pose proof (left_after_len R S rest ltac:(apply L2)) as LA. rewrite LP in LA. destruct (left_after R S rest) as [|t [|pl pub]]; [discriminate LA|discriminate LA|]. cbn [length] in LA. cbn [key_part].
  rewrite room_ok by lia. rewrite idx_mid by lia. cbn [bind]. rewrite room_ok by lia.
  replace (Q ++ t :: pl :: pub) with ((Q ++ [t]) ++ pl :: pub) by (rewrite <- app_assoc; reflexivity).
  rewrite idx_mid by (rewrite zlen_app; change (zlen [t]) with 1; lia). cbn [bind]. destruct (pl =? 33) eqn:EP; cbn [negb]; [|reflexivity]. apply Z.eqb_eq in EP. subst pl.
  rewrite room_ok by lia. replace ((Q ++ [t]) ++ 33 :: pub) with ((Q ++ [t; 33]) ++ pub ++ []) by (rewrite app_nil_r, <- !app_assoc; reflexivity).
  rewrite slice_mid by (rewrite ?zlen_app; change (zlen [t; 33]) with 2; unfold zlen in *; lia). cbn [bind].
  rewrite (u8_small (zlen R + zlen S + 4)), (u8_small (zlen R + zlen S + 4 + 3)) by lia. rewrite LS.
  replace (zlen R + zlen S + 7 + 33 + 2) with (zlen R + zlen S + 42) by lia. rewrite !Z.eqb_refl. replace (zlen R + zlen S + 4 + 3 =? zlen R + zlen S + 7) with true by lia. cbn [negb orb].
  replace (5 + zlen R + 2 + zlen S + 1 + 1 + 33 =? zlen R + zlen S + 42) with true by lia. reflexivity.
Qed.
Lemma decode_script_cases script : is_bytes script ->
  decode_script script = Err \/ exists R S rest, loose_int R /\ loose_int S /\ is_bytes R /\ is_bytes S /\ length rest = 35%nat /\ script = sig_head R S ++ rest.
Proof.
  intros B. destruct script as [|a script]; [left; reflexivity|].
  unfold decode_script. replace (zlen (a :: script) =? 0) with false by (rewrite zlen_cons; pose proof (zlen_nonneg script); lia). change (idx (a :: script) 0) with (Ok a). cbn [bind].
  destruct script as [|b script]; [left; apply room_err; change (zlen [a]) with 1; lia|].
  rewrite room_ok by (rewrite !zlen_cons; pose proof (zlen_nonneg script); lia). change (idx (a :: b :: script) 1) with (Ok b). cbn [bind].
  destruct (b =? 48) eqn:EB; cbn [negb]; [|left; reflexivity]. apply Z.eqb_eq in EB. subst b.
  destruct script as [|c rest]; [left; apply room_err; change (zlen [a; 48]) with 2; lia|].
  rewrite room_ok by (rewrite !zlen_cons; pose proof (zlen_nonneg rest); lia). change (idx (a :: 48 :: c :: rest) 2) with (Ok c). cbn [bind].
  assert (Br : is_bytes rest) by (change (is_bytes ([a; 48; c] ++ rest)) in B; apply is_bytes_app in B as [_ B]; exact B).
  assert (Bc : 0 <= a < 256 /\ 0 <= c < 256) by (apply Forall_cons_iff in B as [B1 B]; apply Forall_cons_iff in B as [_ B]; apply Forall_cons_iff in B as [B3 _]; split; assumption).
  change (a :: 48 :: c :: rest) with ([a; 48; c] ++ rest) in *.
  destruct (read_both a c rest Br) as [E | (R & S & post & Er & L1 & L2 & Q1 & Q2)].
  { left. destruct (read_int ([a; 48; c] ++ rest) 3) as [[[r rl] i]| |]; cbn [bind] in *; [|reflexivity|discriminate E].
    destruct (read_int ([a; 48; c] ++ rest) i) as [[[s sl] j]| |]; cbn [bind] in *; [discriminate E|reflexivity|discriminate E]. }
  rewrite Q1. cbn [bind]. rewrite Q2. cbn [bind]. cbv zeta.
  pose proof (loose_zlen R L1) as Z1. pose proof (loose_zlen S L2) as Z2.
  assert (ZL : zlen ([a; 48; c] ++ rest) = 7 + zlen R + zlen S + zlen post).
  { rewrite Er, !zlen_app, !zlen_cons. change (zlen (@nil Z)) with 0. lia. }
  destruct (append_in_left ([a; 48; c] ++ [2; zlen R] ++ R) R S post ltac:(apply L2)) as (M & ZM & EM).
  replace (zlen ([a; 48; c] ++ [2; zlen R] ++ R)) with (5 + zlen R) in EM by (rewrite !zlen_app, !zlen_cons; change (zlen (@nil Z)) with 0; lia).
  replace (([a; 48; c] ++ [2; zlen R] ++ R) ++ [2; zlen S] ++ S ++ post) with ([a; 48; c] ++ rest) in EM by (rewrite Er, <- !app_assoc; reflexivity).
  rewrite EM. clear EM. rewrite app_assoc. set (P := ([a; 48; c] ++ [2; zlen R] ++ R) ++ M).
  assert (ZP : zlen P = 7 + zlen R + zlen S) by (unfold P; rewrite !zlen_app; change (zlen [a; 48; c]) with 3; change (zlen [2; zlen R]) with 2; lia). clearbody P.
  pose proof (left_after_len R S post ltac:(apply L2)) as LA.
  destruct (Z_lt_ge_dec (zlen post) 1) as [G|G]; [left; apply room_err; lia|]. rewrite room_ok by lia.
  destruct (left_after R S post) as [|t rest'] eqn:ET; [cbn [length] in LA; unfold zlen in G; lia|]. rewrite idx_mid by lia. cbn [bind].
  destruct (Z_lt_ge_dec (zlen post) 2) as [G2|G2]; [left; apply room_err; lia|]. rewrite room_ok by lia.
  destruct rest' as [|pl pub]; [cbn [length] in LA; unfold zlen in G2; lia|]. cbn [length] in LA.
  replace (P ++ t :: pl :: pub) with ((P ++ [t]) ++ pl :: pub) by (rewrite <- app_assoc; reflexivity).
  rewrite idx_mid by (rewrite zlen_app; change (zlen [t]) with 1; lia). cbn [bind].
  destruct (pl =? 33) eqn:EPL; cbn [negb]; [|left; reflexivity].
  destruct (Z_lt_ge_dec (zlen post) 35) as [G3|G3]; [left; apply room_err; lia|]. rewrite room_ok by lia.
  replace ((P ++ [t]) ++ pl :: pub) with ((P ++ [t; pl]) ++ firstn 33 pub ++ skipn 33 pub) by (rewrite firstn_skipn, <- !app_assoc; reflexivity).
  assert (L33 : zlen (firstn 33 pub) = 33) by (unfold zlen in *; rewrite firstn_length; lia).
  rewrite slice_mid by (rewrite ?zlen_app; change (zlen [t; pl]) with 2; lia). cbn [bind].
  rewrite (u8_small (zlen R + zlen S + 4)) by lia.
  destruct (zlen R + zlen S + 4 =? c) eqn:EC; cbn [negb orb]; [|left; reflexivity]. apply Z.eqb_eq in EC. rewrite (u8_small (c + 3)) by lia.
  destruct (c + 3 =? a) eqn:EA; cbn [negb orb]; [|left; reflexivity]. apply Z.eqb_eq in EA.
  destruct (u8 (a + pl + 2) =? _) eqn:EU; cbn [negb]; [|left; reflexivity]. clear EU.
  match goal with |- context [negb (?u =? ?v)] => destruct (u =? v) eqn:EV end; cbn [negb]; [|left; reflexivity]. apply Z.eqb_eq in EV.
  right. exists R, S, post. split; [exact L1|]. split; [exact L2|].
  rewrite Er in Br. apply is_bytes_app in Br as [_ Br]. apply is_bytes_app in Br as [BR Br]. apply is_bytes_app in Br as [_ Br]. apply is_bytes_app in Br as [BS _].
  split; [exact BR|]. split; [exact BS|]. split; [unfold zlen in *; lia|].
  unfold sig_head. rewrite Er. replace a with (zlen R + zlen S + 7) by lia. rewrite <- EC, <- !app_assoc. reflexivity.
Qed.

(** A minimal non-negative integer of 33 bytes whose value fits in 32 bytes starts with a zero byte. *)
Lemma der_loose v R : der_int v R -> v < 256 ^ 32 -> loose_int R.
Proof.
  intros (B & _ & V & H & M) L.
  assert (A : forall x l, R = x :: l -> 33 <= zlen R -> x = 0).
  { intros x l E Z. rewrite E in V, Z, B. rewrite be_num_cons in V. apply Forall_cons_iff in B as [Bx Bl]. rewrite zlen_cons in Z. pose proof (be_num_bound l Bl) as [Q _].
    assert (256 ^ 32 <= 256 ^ zlen l) by (apply Z.pow_le_mono_r; lia). unfold is_byte in Bx. unfold zlen in *. nia. }
  split.
  - destruct R as [|x [|y R]]; [cbn; lia|cbn; lia|]. destruct (le_lt_dec (length (x :: y :: R)) 33) as [G|G]; [exact G|exfalso].
    specialize (A x (y :: R) eq_refl ltac:(unfold zlen; lia)). subst x. specialize (M 0 y R eq_refl eq_refl). change (be_num (0 :: y :: R)) with (be_num (y :: R)) in V.
    apply Forall_cons_iff in B as [_ B]. apply Forall_cons_iff in B as [By BR]. rewrite be_num_cons in V. pose proof (be_num_bound R BR) as [Q _].
    assert (256 ^ 32 <= 256 ^ zlen R) by (apply Z.pow_le_mono_r; [lia|unfold zlen; cbn [length] in G; lia]). unfold zlen in *. nia.
  - intros L33 x y l E. left. apply (A x (y :: l) E). unfold zlen. lia.
Qed.

Lemma is_bytes_app_intro a b : is_bytes a -> is_bytes b -> is_bytes (a ++ b).
Proof. intros. apply is_bytes_app. split; assumption. Qed.
(** ** C28 *)
Definition r_of (sig : bytes) : Z := be_num (firstn 32 sig).
Definition s_of (sig : bytes) : Z := be_num (skipn 32 sig).

Lemma split64 (sig : bytes) : length sig = 64%nat -> length (firstn 32 sig) = 32%nat /\ length (skipn 32 sig) = 32%nat /\ slice sig 0 32 = Ok (firstn 32 sig) /\ slice_from sig 32 = Ok (skipn 32 sig).
Proof.
  intros L. assert (L1 : length (firstn 32 sig) = 32%nat) by (rewrite firstn_length; lia). assert (L2 : length (skipn 32 sig) = 32%nat) by (rewrite skipn_length; lia).
  split; [exact L1|]. split; [exact L2|].
  assert (E : sig = firstn 32 sig ++ skipn 32 sig) by (symmetry; apply firstn_skipn).
  remember (firstn 32 sig) as u eqn:Eu. remember (skipn 32 sig) as v eqn:Ev. clear Eu Ev. rewrite E. split; [apply slice_pre|apply slice_from_post]; unfold zlen; lia.
Qed.
Lemma halves_bytes sig : is_bytes sig -> is_bytes (firstn 32 sig) /\ is_bytes (skipn 32 sig).
Proof. intros B. apply is_bytes_app. rewrite firstn_skipn. exact B. Qed.
Lemma encode_sig_parts sig t : is_bytes sig -> length sig = 64%nat -> 0 < r_of sig -> 0 < s_of sig ->
  exists R S, der_int (r_of sig) R /\ der_int (s_of sig) S /\ loose_int R /\ loose_int S /\ taken R ++ taken S = sig /\ encode_sig sig t = Ok (sig_script R S t).
Proof.
  intros B L Pr Ps. destruct (split64 sig L) as (L1 & L2 & Q1 & Q2). destruct (halves_bytes sig B) as [B1 B2].
  destruct (der_trim_ok _ B1 Pr L1) as (R & E1 & D1 & M1 & T1). destruct (der_trim_ok _ B2 Ps L2) as (S & E2 & D2 & M2 & T2).
  exists R, S. split; [exact D1|]. split; [exact D2|].
  assert (P32 : forall l, is_bytes l -> length l = 32%nat -> be_num l < 256 ^ 32) by (intros l Bl Ll; pose proof (be_num_bound l Bl) as Q; unfold zlen in Q; rewrite Ll in Q; apply Q).
  split; [apply (der_loose _ _ D1); apply P32; assumption|]. split; [apply (der_loose _ _ D2); apply P32; assumption|].
  split; [rewrite T1, T2; apply firstn_skipn|]. unfold encode_sig. rewrite Q1. cbn [bind]. rewrite Q2. cbn [bind]. rewrite E1. cbn [bind]. rewrite E2. cbn [bind]. rewrite der_wrap_eq by assumption. reflexivity.
Qed.
Theorem signature_script_is_minimal_der : forall sig t, is_bytes sig -> length sig = 64%nat -> r_of sig <> 0 -> s_of sig <> 0 ->
  exists R S, der_int (r_of sig) R /\ der_int (s_of sig) S /\ encode_sig sig t = Ok (sig_script R S t).
Proof.
  intros sig t B L Nr Ns. destruct (halves_bytes sig B) as [B1 B2]. pose proof (be_num_bound _ B1). pose proof (be_num_bound _ B2).
  destruct (encode_sig_parts sig t B L) as (R & S & D1 & D2 & _ & _ & _ & E); [unfold r_of in *; lia|unfold s_of in *; lia|]. exists R, S. split; [exact D1|]. split; [exact D2|exact E].
Qed.
(** The content bytes are the only ones with this property. *)
Theorem minimal_der_unique : forall v R R', der_int v R -> der_int v R' -> R = R'.
Proof.
  assert (G : forall R R', der_int (be_num R) R -> der_int (be_num R) R' -> (length R <= length R')%nat -> R = R').
  { intros R R' (B & N & _ & H & M) (B' & N' & V & H' & M') L.
    apply be_num_inj; [exact B|exact B'| |symmetry; exact V].
    destruct (Nat.eq_dec (length R) (length R')) as [E|NE]; [exact E|exfalso].
    destruct R' as [|x [|y R']]; [contradiction|destruct R; [contradiction|cbn [length] in *; lia]|].
    cbn [hd] in H'. apply Forall_cons_iff in B' as [Bx B']. apply Forall_cons_iff in B' as [By B'].
    assert (UB : be_num R < 128 * 256 ^ (zlen R - 1)).
    { destruct R as [|u R]; [contradiction|]. cbn [hd] in H. apply Forall_cons_iff in B as [Bu B]. rewrite be_num_cons. pose proof (be_num_bound R B). rewrite zlen_cons. replace (1 + zlen R - 1) with (zlen R) by lia. unfold zlen in *. nia. }
    assert (LE : 256 ^ (zlen R - 1) <= 256 ^ zlen R') by (apply Z.pow_le_mono_r; [lia|unfold zlen; cbn [length] in *; lia]).
    rewrite be_num_cons, be_num_cons in V. pose proof (be_num_bound R' B'). unfold is_byte in *.
    assert (0 < 256 ^ zlen R') by lia.
    destruct (Z.eq_dec x 0) as [X|X].
    - specialize (M' x y R' eq_refl X). unfold zlen in *. nia.
    - rewrite (zlen_cons y R'), Z.pow_add_r in V by (pose proof (zlen_nonneg R'); lia). change (256 ^ 1) with 256 in V. nia. }
  intros v R R' D D'. assert (V : be_num R = v) by apply D. assert (V' : be_num R' = v) by apply D'.
  destruct (le_ge_dec (length R) (length R')) as [L|L]; [apply G|symmetry; apply G]; try rewrite V; try rewrite V'; assumption.
Qed.
Lemma der_size v R : der_int v R -> v < 128 * 256 ^ (zlen R - 1) /\ ((2 <= length R)%nat -> 128 * 256 ^ (zlen R - 2) <= v).
Proof.
  intros (B & N & V & H & M). subst v. split.
  - destruct R as [|x R]; [contradiction|]. cbn [hd] in H. apply Forall_cons_iff in B as [Bx B]. rewrite be_num_cons. pose proof (be_num_bound R B). rewrite zlen_cons. replace (1 + zlen R - 1) with (zlen R) by lia. unfold zlen in *. nia.
  - intros L. destruct R as [|x [|y R]]; [cbn [length] in L; lia|cbn [length] in L; lia|]. apply Forall_cons_iff in B as [Bx B]. apply Forall_cons_iff in B as [By B].
    rewrite be_num_cons, be_num_cons, !zlen_cons. replace (1 + (1 + zlen R) - 2) with (zlen R) by lia. pose proof (be_num_bound R B). pose proof (zlen_nonneg R). unfold is_byte in *.
    assert (0 < 256 ^ zlen R) by lia. rewrite Z.pow_add_r by lia. change (256 ^ 1) with 256.
    destruct (Z.eq_dec x 0) as [X|X]; [specialize (M x y R eq_refl X); nia|nia].
Qed.
Lemma der_long v R : der_int v R -> (32 <=? length R)%nat = (2 ^ 247 <=? v).
Proof.
  intros D. destruct (der_size v R D) as [U Lw]. change (2 ^ 247) with (128 * 256 ^ 30). destruct (32 <=? length R)%nat eqn:E; symmetry.
  - apply Z.leb_le. etransitivity; [|apply Lw; lia]. apply Z.mul_le_mono_nonneg_l; [lia|]. apply Z.pow_le_mono_r; unfold zlen; lia.
  - apply Z.leb_gt. eapply Z.lt_le_trans; [exact U|]. apply Z.mul_le_mono_nonneg_l; [lia|]. apply Z.pow_le_mono_r; unfold zlen; lia.
Qed.
Lemma der_short v R : der_int v R -> (length R <=? 29)%nat = (v <? 2 ^ 231).
Proof.
  intros D. destruct (der_size v R D) as [U Lw]. change (2 ^ 231) with (128 * 256 ^ 28). destruct (length R <=? 29)%nat eqn:E; symmetry.
  - apply Z.ltb_lt. eapply Z.lt_le_trans; [exact U|]. apply Z.mul_le_mono_nonneg_l; [lia|]. apply Z.pow_le_mono_r; unfold zlen; lia.
  - apply Z.ltb_ge. etransitivity; [|apply Lw; lia]. apply Z.mul_le_mono_nonneg_l; [lia|]. apply Z.pow_le_mono_r; unfold zlen; lia.
Qed.
(** The signatures whose scripts the decoders read back in any case: a small r or a not very small s. *)
Definition readable (sig : bytes) : Prop := r_of sig < 2 ^ 247 \/ 2 ^ 231 <= s_of sig.
(** How many bytes after the signature are lost for the others, [S] being the minimal integer for s. *)
Definition lost_after (sig S : bytes) : nat := if 2 ^ 247 <=? r_of sig then 30 - length S else 0.
Lemma lost_readable sig S : der_int (s_of sig) S -> (lost_after sig S = 0%nat <-> readable sig).
Proof.
  intros D. pose proof (der_short _ _ D) as Q. unfold lost_after, readable. destruct (2 ^ 247 <=? r_of sig) eqn:E.
  - split; intros K; [right|]; lia.
  - split; intros K; [left; lia|reflexivity].
Qed.
Lemma taken_halves R S sig : taken R ++ taken S = sig -> loose_int R -> loose_int S -> taken S = skipn 32 sig.
Proof. intros <- [L1 _] [L2 _]. rewrite skipn_app, skipn_all2, taken_length, Nat.sub_diag by (rewrite ?taken_length by exact L1; lia || exact L1). reflexivity. Qed.
(** The same number from the values alone: an integer with b bits takes b/8 + 1 bytes. *)
Definition lost_of (sig : bytes) : nat := if 2 ^ 247 <=? r_of sig then 30 - Z.to_nat ((Z.log2 (s_of sig) + 1) / 8 + 1) else 0.
Lemma der_len v R : der_int v R -> 0 < v -> zlen R = (Z.log2 v + 1) / 8 + 1.
Proof.
  intros D P. destruct (der_size v R D) as [U Lw]. assert (N : R <> []) by apply D. assert (L1 : (1 <= length R)%nat) by (destruct R; [contradiction|cbn [length]; lia]).
  assert (W : forall k, 0 <= k -> 128 * 256 ^ k = 2 ^ (8 * k + 7)).
  { intros k Hk. change 256 with (2 ^ 8). rewrite <- Z.pow_mul_r by lia. change 128 with (2 ^ 7). rewrite <- Z.pow_add_r by lia. f_equal. lia. }
  rewrite W in U by (unfold zlen; lia).
  assert (LU : Z.log2 v < 8 * (zlen R - 1) + 7) by (apply Z.log2_lt_pow2; lia).
  assert (LL : 8 * (zlen R - 1) - 1 <= Z.log2 v).
  { destruct (Nat.eq_dec (length R) 1) as [E1|N1]; [pose proof (Z.log2_nonneg v); unfold zlen; lia|]. specialize (Lw ltac:(lia)). rewrite W in Lw by (unfold zlen; lia). apply Z.log2_le_pow2 in Lw; [lia|lia]. }
  assert (Q : (Z.log2 v + 1) / 8 = zlen R - 1); [|lia]. symmetry. apply (Z.div_unique_pos _ _ _ (Z.log2 v + 1 - 8 * (zlen R - 1))); lia.
Qed.
Lemma lost_same sig S : der_int (s_of sig) S -> 0 < s_of sig -> lost_after sig S = lost_of sig.
Proof. intros D P. unfold lost_after, lost_of. rewrite <- (der_len _ _ D P). unfold zlen. rewrite Nat2Z.id. reflexivity. Qed.
(** What the script written for a signature is read as. *)
Theorem signature_script_reads_as : forall sig t tail, is_bytes sig -> length sig = 64%nat -> r_of sig <> 0 -> s_of sig <> 0 ->
  exists script S, encode_sig sig t = Ok script /\ der_int (s_of sig) S /\
    forall t' tail', overwritten (lost_after sig S) (skipn 32 sig) (t :: tail) = t' :: tail' -> decode_sig script tail = Ok (sig, t', tail').
Proof.
  intros sig t tail B L Nr Ns. destruct (halves_bytes sig B) as [B1 B2]. pose proof (be_num_bound _ B1). pose proof (be_num_bound _ B2).
  destruct (encode_sig_parts sig t B L) as (R & S & D1 & D2 & L1 & L2 & T & E); [unfold r_of in *; lia|unfold s_of in *; lia|].
  exists (sig_script R S t), S. split; [exact E|]. split; [exact D2|]. intros t' tail' EO. rewrite decode_sig_ok; [|apply D1|apply D2|exact L1|exact L2].
  unfold left_after. rewrite (der_long _ _ D1). unfold lost_after in EO. rewrite (taken_halves R S sig T L1 L2) at 2 3. rewrite EO, T. reflexivity.
Qed.
Theorem signature_script_round_trip : forall sig t tail, is_bytes sig -> length sig = 64%nat -> r_of sig <> 0 -> s_of sig <> 0 -> readable sig ->
  exists script, encode_sig sig t = Ok script /\ decode_sig script tail = Ok (sig, t, tail).
Proof.
  intros sig t tail B L Nr Ns Rd. destruct (signature_script_reads_as sig t tail B L Nr Ns) as (script & S & E & D & K). exists script. split; [exact E|]. apply K.
  rewrite (proj2 (lost_readable sig S D) Rd). apply overwritten_0. apply (split64 sig L).
Qed.
(** The outcome of reading the type, the key length and the key from 35 bytes. *)
Theorem input_script_reads_as : forall sig pub t, is_bytes sig -> length sig = 64%nat -> r_of sig <> 0 -> s_of sig <> 0 -> length pub = 33%nat ->
  exists script S, encode_script sig pub t = Ok script /\ der_int (s_of sig) S /\
    decode_script script = key_part sig (overwritten (lost_after sig S) (skipn 32 sig) (t :: 33 :: pub)) /\
    (t = 1 -> verge_sigpub sig pub = Ok (zlen script :: script)) /\ hypercash_sigpub sig pub t = Ok (zlen script :: script).
Proof.
  intros sig pub t B L Nr Ns LP. destruct (halves_bytes sig B) as [B1 B2]. pose proof (be_num_bound _ B1). pose proof (be_num_bound _ B2).
  destruct (encode_sig_parts sig t B L) as (R & S & D1 & D2 & L1 & L2 & T & E); [unfold r_of in *; lia|unfold s_of in *; lia|].
  exists (sig_script R S t ++ 33 :: pub), S.
  assert (U : u8 (zlen pub) = 33) by (unfold zlen; rewrite LP; reflexivity).
  assert (E2 : encode_script sig pub t = Ok (sig_script R S t ++ 33 :: pub)) by (unfold encode_script; rewrite E; cbn [bind]; rewrite U; reflexivity).
  assert (UL : u8 (zlen (sig_script R S t ++ 33 :: pub)) = zlen (sig_script R S t ++ 33 :: pub)).
  { apply u8_small. rewrite zlen_app, zlen_cons, sig_script_len. pose proof (loose_zlen R L1). pose proof (loose_zlen S L2). unfold zlen at 3 6. rewrite LP. lia. }
  split; [exact E2|]. split; [exact D2|]. split; [|split].
  - rewrite sig_script_head, decode_script_ok; [|apply D1|apply D2|exact L1|exact L2|cbn [length]; lia]. unfold left_after. rewrite (der_long _ _ D1), T, (taken_halves R S sig T L1 L2). reflexivity.
  - intros ->. unfold verge_sigpub. rewrite E. cbn [bind]. rewrite UL. reflexivity.
  - unfold hypercash_sigpub. rewrite E2. cbn [bind]. rewrite UL. reflexivity.
Qed.
Theorem input_script_round_trip : forall sig pub t, is_bytes sig -> length sig = 64%nat -> r_of sig <> 0 -> s_of sig <> 0 -> readable sig -> length pub = 33%nat ->
  exists script, encode_script sig pub t = Ok script /\ decode_script script = Ok (sig, pub, t) /\
    (t = 1 -> verge_sigpub sig pub = Ok (zlen script :: script)) /\ hypercash_sigpub sig pub t = Ok (zlen script :: script).
Proof.
  intros sig pub t B L Nr Ns Rd LP. destruct (input_script_reads_as sig pub t B L Nr Ns LP) as (script & S & E & D & K & V & H). exists script. split; [exact E|]. split; [|split; assumption].
  rewrite K, (proj2 (lost_readable sig S D) Rd), overwritten_0 by (apply (split64 sig L)). reflexivity.
Qed.
(** The other signatures come back exactly when the bytes written over happen to be the last bytes of s. *)
Lemma overwritten_same k half rest : (k <= length rest)%nat -> (k <= 32)%nat -> length half = 32%nat -> (overwritten k half rest = rest <-> firstn k rest = skipn (32 - k) half).
Proof.
  intros L K H. unfold overwritten. rewrite (firstn_all2 (n := length rest)) by (rewrite app_length, !skipn_length; lia). split; intros Q.
  - apply (f_equal (firstn k)) in Q. rewrite firstn_app, firstn_all2, skipn_length in Q by (rewrite skipn_length; lia). replace (k - (length half - (32 - k)))%nat with O in Q by lia. rewrite firstn_O, app_nil_r in Q. symmetry. exact Q.
  - rewrite <- Q. apply firstn_skipn.
Qed.
Lemma skip_skip {A} b : forall a (l : list A), skipn a (skipn b l) = skipn (b + a) l.
Proof. induction b as [|b IH]; intros a l; [reflexivity|]. destruct l as [|x l]; [cbn [skipn]; rewrite skipn_nil; destruct (S b + a)%nat; reflexivity|]. cbn [skipn Nat.add]. apply IH. Qed.
Theorem input_script_round_trip_iff : forall sig pub t script S, is_bytes sig -> length sig = 64%nat -> r_of sig <> 0 -> s_of sig <> 0 -> length pub = 33%nat ->
  encode_script sig pub t = Ok script -> der_int (s_of sig) S ->
  (decode_script script = Ok (sig, pub, t) <-> readable sig \/ firstn (30 - length S) (t :: 33 :: pub) = skipn (34 + length S) sig) /\
  (forall sig' pub' t', decode_script script = Ok (sig', pub', t') -> sig' = sig).
Proof.
  intros sig pub t script S B L Nr Ns LP E D. destruct (input_script_reads_as sig pub t B L Nr Ns LP) as (script' & S' & E' & D' & K & _).
  assert (script' = script) by (clear - E E'; congruence). subst script'. rewrite <- (minimal_der_unique _ _ _ D D') in K. clear S' D'.
  pose proof (split64 sig L) as (_ & LH & _). pose proof (lost_readable sig S D) as LR.
  assert (N : S <> []) by apply D. assert (S0 : (1 <= length S)%nat) by (destruct S; [contradiction|cbn [length]; lia]).
  assert (K29 : (lost_after sig S <= 29)%nat) by (unfold lost_after; destruct (2 ^ 247 <=? r_of sig); lia).
  pose proof (overwritten_len (lost_after sig S) (skipn 32 sig) (t :: 33 :: pub) LH ltac:(lia)) as LO.
  pose proof (overwritten_same (lost_after sig S) (skipn 32 sig) (t :: 33 :: pub) ltac:(cbn [length]; lia) ltac:(lia) LH) as SM.
  assert (KP : forall rest a b c, key_part sig rest = Ok (a, b, c) -> a = sig /\ rest = c :: 33 :: b).
  { intros [|x [|y rest]] a b c Q; [discriminate|discriminate|]. cbn [key_part] in Q. destruct (y =? 33) eqn:Y; [|discriminate]. apply Z.eqb_eq in Y. subst y. split; congruence. }
  split; [|intros a b c Q; rewrite K in Q; exact (proj1 (KP _ _ _ _ Q))].
  assert (M : decode_script script = Ok (sig, pub, t) <-> overwritten (lost_after sig S) (skipn 32 sig) (t :: 33 :: pub) = t :: 33 :: pub).
  { rewrite K. split; [intros Q; apply (KP _ _ _ _ Q)|]. intros ->. reflexivity. }
  rewrite M, SM. destruct (2 ^ 247 <=? r_of sig) eqn:E247.
  - unfold lost_after in *. rewrite E247 in *. 
    destruct (le_gt_dec 30 (length S)) as [G|G].
    + split; [intros _; left; apply LR; lia|]. intros _. replace (30 - length S)%nat with O by lia. cbn [firstn]. rewrite skipn_all2 by lia. reflexivity.
    + rewrite skip_skip. replace (32 + (32 - (30 - length S)))%nat with (34 + length S)%nat by lia.
      split; [intros Q; right; exact Q|]. intros [Q|Q]; [|exact Q]. exfalso. apply LR in Q. lia.
  - unfold lost_after in *. rewrite E247 in *. split; [intros _; left; left; lia|]. intros _. cbn [firstn]. rewrite skipn_all2 by lia. reflexivity.
Qed.
Theorem signature_script_panics_iff : forall sig pub t, is_bytes sig -> length sig = 64%nat ->
  (encode_sig sig t = Panic <-> r_of sig = 0 \/ s_of sig = 0) /\
  (encode_script sig pub t = Panic <-> r_of sig = 0 \/ s_of sig = 0).
Proof.
  intros sig pub t B L. destruct (halves_bytes sig B) as [B1 B2]. pose proof (be_num_bound _ B1) as G1. pose proof (be_num_bound _ B2) as G2. destruct (split64 sig L) as (L1 & L2 & Q1 & Q2).
  assert (M : encode_sig sig t = Panic <-> r_of sig = 0 \/ s_of sig = 0).
  { split.
    - intros P. destruct (Z.eq_dec (r_of sig) 0); [left; assumption|]. destruct (Z.eq_dec (s_of sig) 0); [right; assumption|]. exfalso.
      destruct (signature_script_is_minimal_der sig t B L) as (R & S & _ & _ & E); [assumption|assumption|]. rewrite E in P. discriminate.
    - intros Z0. unfold encode_sig. rewrite Q1. cbn [bind]. rewrite Q2. cbn [bind]. destruct (Z.eq_dec (r_of sig) 0) as [Zr|Nr].
      + rewrite der_trim_zero by assumption. reflexivity.
      + destruct Z0 as [Zr|Zs]; [contradiction|]. destruct (der_trim_ok _ B1 ltac:(unfold r_of in *; lia) L1) as (R & -> & _). cbn [bind]. rewrite der_trim_zero by assumption. reflexivity. }
  split; [exact M|]. rewrite <- M. unfold encode_script. destruct (encode_sig sig t); cbn [bind]; split; intros Q; try discriminate Q; reflexivity.
Qed.
(** Decoding is total, and accepts exactly the scripts with two loosely encoded integers and matching lengths. *)
Lemma head_bytes R S rest : is_bytes (sig_head R S ++ rest) -> is_bytes R /\ is_bytes S.
Proof.
  intros B. unfold sig_head in B. rewrite <- !app_assoc in B. apply is_bytes_app in B as [_ B]; apply is_bytes_app in B as [_ B]; apply is_bytes_app in B as [BR B];
      apply is_bytes_app in B as [_ B]; apply is_bytes_app in B as [BS B]. split; assumption.
Qed.
Theorem signature_script_accepts_exactly : forall script tail, is_bytes script -> decode_sig script tail <> Panic /\
  forall sig t tail', decode_sig script tail = Ok (sig, t, tail') <->
    exists R S t0, loose_int R /\ loose_int S /\ script = sig_script R S t0 /\ sig = taken R ++ taken S /\ t :: tail' = left_after R S (t0 :: tail).
Proof.
  intros script tail B.
  assert (G : forall R S t, loose_int R -> loose_int S -> script = sig_script R S t -> decode_sig script tail = Ok (taken R ++ taken S, hd 0 (left_after R S (t :: tail)), tl (left_after R S (t :: tail)))).
  { intros R S t L1 L2 ->. rewrite sig_script_head0 in B. destruct (head_bytes _ _ _ B) as [BR BS]. apply decode_sig_ok; assumption. }
  destruct (decode_sig_cases script tail B) as [E | (R & S & t & L1 & L2 & _ & _ & Es)].
  - split; [rewrite E; discriminate|]. intros sig t tail'. split; [rewrite E; discriminate|]. intros (R & S & t0 & L1 & L2 & Es & Eg). exfalso. rewrite (G R S t0 L1 L2 Es) in E. discriminate.
  - rewrite (G R S t L1 L2 Es). split; [discriminate|]. intros sig t' tail'.
    pose proof (left_after_len R S (t :: tail) ltac:(apply L2)) as LA. split.
    + intros Q. exists R, S, t. split; [exact L1|]. split; [exact L2|]. split; [exact Es|]. destruct (left_after R S (t :: tail)) as [|x l]; [discriminate LA|]. cbn [hd tl] in Q. split; congruence.
    + intros (R' & S' & t0 & _ & _ & Es' & -> & EL). rewrite Es in Es'. destruct (sig_script_inj R S t [] R' S' t0 []) as (-> & -> & -> & _); [rewrite !app_nil_r; exact Es'|]. rewrite <- EL. reflexivity.
Qed.
Theorem input_script_accepts_exactly : forall script, is_bytes script -> decode_script script <> Panic /\
  forall sig pub t, decode_script script = Ok (sig, pub, t) <->
    exists R S rest, loose_int R /\ loose_int S /\ length rest = 35%nat /\ script = sig_head R S ++ rest /\ sig = taken R ++ taken S /\ left_after R S rest = t :: 33 :: pub.
Proof.
  intros script B.
  assert (G : forall R S rest, loose_int R -> loose_int S -> length rest = 35%nat -> script = sig_head R S ++ rest -> decode_script script = key_part (taken R ++ taken S) (left_after R S rest)).
  { intros R S rest L1 L2 LR ->. destruct (head_bytes _ _ _ B) as [BR BS]. apply decode_script_ok; assumption. }
  assert (KP : forall sig rest, key_part sig rest <> Panic /\ forall a b c, key_part sig rest = Ok (a, b, c) <-> a = sig /\ rest = c :: 33 :: b).
  { intros sg [|x [|y rest]]; cbn [key_part]; [split; [discriminate|]; intros a b c; split; [discriminate|intros [_ Q]; discriminate Q]..|].
    destruct (y =? 33) eqn:Y; (split; [discriminate|]); intros a b c; split; [|intros [-> Q]|discriminate|intros [_ Q]].
    - apply Z.eqb_eq in Y. subst y. intros Q. split; congruence.
    - injection Q as -> _ ->; reflexivity.
    - exfalso. assert (y = 33) by (clear - Q; congruence). lia. }
  destruct (decode_script_cases script B) as [E | (R & S & rest & L1 & L2 & _ & _ & LR & Es)].
  - split; [rewrite E; discriminate|]. intros sig pub t. split; [rewrite E; discriminate|]. intros (R & S & rest & L1 & L2 & LR & Es & Eg & EL). exfalso. rewrite (G R S rest L1 L2 LR Es), EL in E. cbn [key_part] in E. change (33 =? 33) with true in E. discriminate.
  - rewrite (G R S rest L1 L2 LR Es). split; [apply KP|]. intros sig pub t. rewrite (proj2 (KP _ _) sig pub t). split.
    + intros [-> Q]. exists R, S, rest. split; [exact L1|]. split; [exact L2|]. split; [exact LR|]. split; [exact Es|]. split; [reflexivity|exact Q].
    + intros (R' & S' & rest' & _ & _ & _ & Es' & -> & EL). rewrite Es in Es'. destruct (sig_head_inj R S rest R' S' rest' Es') as (-> & -> & ->). split; [reflexivity|exact EL].
Qed.
(** Every encodable signature, readable or not, has a second script that decodes to it: the decoder does not insist on minimal integers. *)
Theorem input_script_malleable : forall sig pub t, is_bytes sig -> length sig = 64%nat -> r_of sig <> 0 -> s_of sig <> 0 -> is_byte t -> is_bytes pub -> length pub = 33%nat ->
  exists script script', encode_script sig pub t = Ok script /\ is_bytes script' /\ script' <> script /\ decode_script script' = Ok (sig, pub, t).
Proof.
  intros sig pub t B L Nr Ns Bt Bp LP. destruct (halves_bytes sig B) as [B1 B2]. pose proof (be_num_bound _ B1). pose proof (be_num_bound _ B2).
  destruct (encode_sig_parts sig t B L) as (R & S & D1 & D2 & L1 & L2 & T & E); [unfold r_of in *; lia|unfold s_of in *; lia|].
  assert (G : exists S', is_bytes S' /\ loose_int S' /\ S' <> S /\ taken S' = taken S /\ length S' = 33%nat).
  { destruct D2 as (BS & NS & V & Hh & Mn). destruct (Nat.eq_dec (length S) 33) as [E33|N33].
    - destruct S as [|x S]; [discriminate|]. exists (1 - x :: S).
      assert (X : x = 0).
      { destruct (Z.eq_dec x 0) as [X|X]; [exact X|exfalso]. rewrite be_num_cons in V. apply Forall_cons_iff in BS as [Bx BS]. pose proof (be_num_bound S BS).
        pose proof (be_num_bound _ B2) as Q. unfold s_of in V. unfold zlen in Q. rewrite (proj1 (proj2 (split64 sig L))) in Q. unfold zlen in *. replace (length S) with 32%nat in * by (cbn [length] in E33; lia). unfold is_byte in Bx. nia. }
      subst x. apply Forall_cons_iff in BS as [_ BS]. split; [constructor; [unfold is_byte; lia|exact BS]|]. split; [|split; [discriminate|split; [|exact E33]]].
      + split; [cbn [length] in *; lia|]. intros _ a b l Eq. right. assert (S = b :: l) by (clear - Eq; congruence). subst S. apply (Mn 0 b l eq_refl eq_refl).
      + unfold taken. cbn [length] in *. replace (Datatypes.S (length S) =? 33)%nat with true by lia. reflexivity.
    - destruct L2 as [LL _]. exists (0 :: zeros (32 - length S) ++ S).
      assert (L33 : length (0 :: zeros (32 - length S) ++ S) = 33%nat) by (cbn [length]; rewrite app_length; unfold zeros; rewrite repeat_length; lia).
      split; [constructor; [unfold is_byte; lia|apply is_bytes_app; split; [apply is_bytes_zeros|exact BS]]|]. split; [|split; [|split; [|exact L33]]].
      + split; [lia|]. intros _ a b l Eq. left. congruence.
      + intros Eq. apply (f_equal (@length Z)) in Eq. lia.
      + unfold taken. rewrite L33. change (33 =? 33)%nat with true. replace (length S =? 33)%nat with false by lia. reflexivity. }
  destruct G as (S' & BS' & LS' & NE & TE & L33).
  exists (sig_script R S t ++ 33 :: pub), (sig_script R S' t ++ 33 :: pub).
  assert (U : u8 (zlen pub) = 33) by (unfold zlen; rewrite LP; reflexivity).
  split; [unfold encode_script; rewrite E; cbn [bind]; rewrite U; reflexivity|]. split; [|split].
  - apply is_bytes_app; split; [|constructor; [unfold is_byte; lia|exact Bp]]. unfold sig_script. pose proof (loose_zlen R L1). pose proof (loose_zlen S' LS').
    apply is_bytes_app; split; [repeat (constructor; [unfold is_byte; lia|]); constructor|]. apply is_bytes_app; split; [repeat (constructor; [unfold is_byte; lia|]); constructor|].
    apply is_bytes_app; split; [apply D1|]. apply is_bytes_app; split; [repeat (constructor; [unfold is_byte; lia|]); constructor|]. apply is_bytes_app; split; [exact BS'|]. constructor; [exact Bt|constructor].
  - intros Q. apply NE. apply (sig_script_inj R S' t _ R S t _ Q).
  - rewrite sig_script_head, decode_script_ok; [|apply D1|exact BS'|exact L1|exact LS'|cbn [length]; lia]. unfold left_after. rewrite L33. replace (if (32 <=? length R)%nat then 30 - 33 else 0)%nat with O by (destruct (32 <=? length R)%nat; reflexivity).
    rewrite overwritten_0 by (apply taken_length; apply LS'). rewrite TE, T. reflexivity.
Qed.

(** ** The btcLikeTxDriver witness script: leading zero bytes stay. *)
Definition wide_int (r : bytes) : bytes := if 128 <=? hd 0 r then 0 :: r else r.
Lemma witness_trim_ok r : is_bytes r -> length r = 32%nat -> witness_trim r = Ok (wide_int r).
Proof.
  intros B L. destruct r as [|x r]; [discriminate|]. unfold witness_trim, wide_int. change (idx (x :: r) 0) with (Ok x). cbn [bind hd]. rewrite high_bit by (apply Forall_cons_iff in B as [Bx _]; exact Bx). reflexivity.
Qed.
Lemma wide_len r : length r = 32%nat -> zlen (wide_int r) = 32 \/ zlen (wide_int r) = 33.
Proof. intros L. unfold wide_int. destruct (128 <=? hd 0 r); [right; rewrite zlen_cons|left]; unfold zlen; rewrite L; reflexivity. Qed.
Lemma segwit_int_ok pre r post : is_bytes r -> length r = 32%nat ->
  segwit_int (pre ++ [2; zlen (wide_int r)] ++ wide_int r ++ post) (zlen pre) = Ok (r, zlen (wide_int r), zlen pre + 2 + zlen (wide_int r)).
Proof.
  intros B L. unfold segwit_int. cbn [app]. rewrite idx_mid by reflexivity. cbn [bind]. change (2 =? 2) with true. cbn [negb].
  replace (pre ++ 2 :: zlen (wide_int r) :: wide_int r ++ post) with ((pre ++ [2]) ++ zlen (wide_int r) :: wide_int r ++ post) by (rewrite <- app_assoc; reflexivity).
  rewrite idx_mid by (rewrite zlen_app; reflexivity). cbn [bind]. cbv zeta. unfold wide_int. destruct (128 <=? hd 0 r) eqn:H.
  - replace (zlen (0 :: r)) with 33 by (unfold zlen; cbn [length]; rewrite L; reflexivity). change (33 =? 33) with true. cbv iota. cbn [app].
    replace ((pre ++ [2]) ++ 33 :: 0 :: r ++ post) with ((pre ++ [2; 33]) ++ 0 :: r ++ post) by (rewrite <- !app_assoc; reflexivity).
    rewrite idx_mid by (rewrite zlen_app; reflexivity). cbn [bind]. change (0 =? 0) with true. cbn [bind].
    replace ((pre ++ [2; 33]) ++ 0 :: r ++ post) with ((pre ++ [2; 33; 0]) ++ r ++ post) by (rewrite <- !app_assoc; reflexivity).
    rewrite slice_mid by (rewrite ?zlen_app; change (zlen [2; 33; 0]) with 3; unfold zlen; lia). cbn [bind]. do 2 f_equal. lia.
  - replace (zlen r) with 32 by (unfold zlen; rewrite L; reflexivity). change (32 =? 33) with false. cbv iota. cbn [bind].
    replace ((pre ++ [2]) ++ 32 :: r ++ post) with ((pre ++ [2; 32]) ++ r ++ post) by (rewrite <- !app_assoc; reflexivity).
    rewrite slice_mid by (rewrite ?zlen_app; change (zlen [2; 32]) with 2; unfold zlen; lia). cbn [bind]. do 2 f_equal.
Qed.
Lemma wide_der r : is_bytes r -> length r = 32%nat -> der_int (be_num r) (wide_int r) <-> (nth 0 r 0 <> 0 \/ 128 <= nth 1 r 0).
Proof.
  intros B L. destruct r as [|x [|y r]]; [discriminate|discriminate|]. unfold wide_int. cbn [hd nth]. pose proof B as B'. apply Forall_cons_iff in B' as [Bx B']. apply Forall_cons_iff in B' as [By _].
  destruct (128 <=? x) eqn:H; split.
  - intros _. left. lia.
  - intros _. split; [constructor; [unfold is_byte; lia|exact B]|]. split; [discriminate|]. split; [reflexivity|]. split; [cbn; lia|]. intros a b l E _. injection E as <- <- <-. lia.
  - intros (_ & _ & _ & _ & M). specialize (M x y r eq_refl). destruct (Z.eq_dec x 0); [right; apply M; assumption|left; assumption].
  - intros C. split; [exact B|]. split; [discriminate|]. split; [reflexivity|]. split; [cbn [hd]; lia|]. intros a b l E Z0. injection E as <- <- <-. destruct C; [contradiction|assumption].
Qed.
Theorem witness_script_round_trip : forall sig pub, is_bytes sig -> length sig = 64%nat -> length pub = 33%nat ->
  exists script, witness_script sig pub 1 = Ok script /\ decode_segwit 1 script = Ok (sig, pub).
Proof.
  intros sig pub B L LP. destruct (split64 sig L) as (L1 & L2 & Q1 & Q2). destruct (halves_bytes sig B) as [B1 B2].
  pose proof (firstn_skipn 32 sig) as ESIG. remember (firstn 32 sig) as r eqn:Er. remember (skipn 32 sig) as s eqn:Es0. clear Er Es0.
  unfold witness_script. rewrite Q1. cbn [bind]. rewrite Q2. cbn [bind]. rewrite witness_trim_ok by assumption. cbn [bind]. rewrite witness_trim_ok by assumption. cbn [bind].
  pose proof (wide_len r L1) as W1. pose proof (wide_len s L2) as W2.
  rewrite der_wrap_eq by (unfold zlen in *; lia). replace (u8 (zlen pub)) with 33 by (unfold zlen; rewrite LP; reflexivity).
  eexists. split; [reflexivity|].
  set (R := wide_int r) in *. set (S := wide_int s) in *. set (P := [zlen R + zlen S + 7; 48; zlen R + zlen S + 4]).
  set (sc := sig_script R S 1 ++ 33 :: pub).
  assert (ES : sc = P ++ [2; zlen R] ++ R ++ [2; zlen S] ++ S ++ [1; 33] ++ pub) by (unfold sc, sig_script, P; rewrite <- !app_assoc; reflexivity).
  assert (LS : zlen sc = zlen R + zlen S + 42) by (unfold sc; rewrite zlen_app, zlen_cons, sig_script_len; unfold zlen; lia).
  set (H := P ++ [2; zlen R] ++ R ++ [2; zlen S] ++ S). assert (ZH : zlen H = zlen R + zlen S + 7) by (unfold H; rewrite !zlen_app; change (zlen P) with 3; change (zlen [2; zlen R]) with 2; change (zlen [2; zlen S]) with 2; lia).
  unfold decode_segwit.
  replace (idx sc 0) with (Ok (zlen R + zlen S + 7)) by (rewrite ES; reflexivity). cbn [bind].
  replace (idx sc 1) with (Ok 48) by (rewrite ES; reflexivity). cbn [bind]. change (48 =? 48) with true. cbn [negb].
  replace (idx sc 2) with (Ok (zlen R + zlen S + 4)) by (rewrite ES; reflexivity). cbn [bind].
  pose proof (segwit_int_ok P r ([2; zlen S] ++ S ++ [1; 33] ++ pub) B1 L1) as I1. fold R in I1. change (zlen P) with 3 in I1. rewrite <- ES in I1. rewrite I1. cbn [bind].
  pose proof (segwit_int_ok (P ++ [2; zlen R] ++ R) s ([1; 33] ++ pub) B2 L2) as I2. fold S in I2. rewrite <- !app_assoc in I2. rewrite <- ES in I2.
  replace (zlen (P ++ [2; zlen R] ++ R)) with (3 + 2 + zlen R) in I2 by (rewrite !zlen_app; change (zlen P) with 3; change (zlen [2; zlen R]) with 2; lia). rewrite I2. cbn [bind].
  replace (idx sc (3 + 2 + zlen R + 2 + zlen S)) with (Ok 1).
  2: { symmetry. replace sc with (H ++ 1 :: 33 :: pub) by (rewrite ES; unfold H; rewrite <- !app_assoc; reflexivity). apply idx_mid. lia. }
  cbn [bind]. change (1 =? 1) with true. cbn [negb].
  replace (idx sc (3 + 2 + zlen R + 2 + zlen S + 1)) with (Ok 33).
  2: { symmetry. replace sc with ((H ++ [1]) ++ 33 :: pub) by (rewrite ES; unfold H; rewrite <- !app_assoc; reflexivity). apply idx_mid. rewrite zlen_app. change (zlen [1]) with 1. lia. }
  cbn [bind]. change (33 =? 33) with true. cbn [negb]. cbv zeta.
  replace (slice sc (3 + 2 + zlen R + 2 + zlen S + 2) (3 + 2 + zlen R + 2 + zlen S + 2 + 33)) with (Ok pub).
  2: { symmetry. replace sc with ((H ++ [1; 33]) ++ pub ++ []) by (rewrite ES; unfold H; rewrite app_nil_r, <- !app_assoc; reflexivity). apply slice_mid; rewrite ?zlen_app; change (zlen [1; 33]) with 2; unfold zlen in *; lia. }
  cbn [bind]. rewrite (u8_small (zlen R + zlen S + 4)), (u8_small (zlen R + zlen S + 4 + 3)) by lia. rewrite LS.
  replace (zlen R + zlen S + 7 + 33 + 2) with (zlen R + zlen S + 42) by lia. rewrite !Z.eqb_refl. replace (zlen R + zlen S + 4 + 3 =? zlen R + zlen S + 7) with true by lia. cbn [negb orb].
  replace (3 + 2 + zlen R + 2 + zlen S + 2 + 33 =? zlen R + zlen S + 42) with true by lia. cbn [negb]. rewrite ESIG. reflexivity.
Qed.
(** Its integers are right, but minimal only when neither half starts with a removable zero byte (network rule BIP66). *)
Theorem witness_script_minimal_iff : forall sig pub t, is_bytes sig -> length sig = 64%nat -> length pub = 33%nat ->
  exists R S, witness_script sig pub t = Ok (sig_script R S t ++ 33 :: pub) /\ be_num R = r_of sig /\ be_num S = s_of sig /\ hd 0 R < 128 /\ hd 0 S < 128 /\
    (der_int (r_of sig) R <-> (nth 0 sig 0 <> 0 \/ 128 <= nth 1 sig 0)) /\ (der_int (s_of sig) S <-> (nth 32 sig 0 <> 0 \/ 128 <= nth 33 sig 0)).
Proof.
  intros sig pub t B L LP. destruct (split64 sig L) as (L1 & L2 & Q1 & Q2). destruct (halves_bytes sig B) as [B1 B2].
  exists (wide_int (firstn 32 sig)), (wide_int (skipn 32 sig)). unfold r_of, s_of.
  assert (V : forall l, be_num (wide_int l) = be_num l /\ hd 0 (wide_int l) < 128) by (intros l; unfold wide_int; destruct (128 <=? hd 0 l) eqn:H; split; try reflexivity; cbn [hd]; lia).
  split; [|split; [apply V|split; [apply V|split; [apply V|split; [apply V|]]]]].
  - unfold witness_script. rewrite Q1. cbn [bind]. rewrite Q2. cbn [bind]. rewrite witness_trim_ok by assumption. cbn [bind]. rewrite witness_trim_ok by assumption. cbn [bind].
    pose proof (wide_len (firstn 32 sig) L1) as W1. pose proof (wide_len (skipn 32 sig) L2) as W2. rewrite der_wrap_eq by (unfold zlen in *; lia). replace (u8 (zlen pub)) with 33 by (unfold zlen; rewrite LP; reflexivity). reflexivity.
  - rewrite !wide_der by assumption.
    assert (N1 : forall n, (n < 32)%nat -> nth n (firstn 32 sig) 0 = nth n sig 0).
    { intros n Hn. rewrite <- (firstn_skipn 32 sig) at 2. rewrite app_nth1 by lia. reflexivity. }
    assert (N2 : forall n, nth n (skipn 32 sig) 0 = nth (32 + n) sig 0).
    { intros n. rewrite <- (firstn_skipn 32 sig) at 2. rewrite app_nth2 by lia. rewrite L1. f_equal. lia. }
    rewrite !N1 by lia. rewrite !N2. cbn [Nat.add]. tauto.
Qed.

(** ** C29: aliencoin *)
Lemma alien_idx (r : bytes) i : length r = 32%nat -> idx (skipn i r) (Z.of_nat i) = if (i <? 16)%nat then Ok (nth (2 * i) r 0) else Panic.
Proof.
  intros L. unfold idx. replace (Z.of_nat i <? 0) with false by lia. rewrite Nat2Z.id. destruct (i <? 16)%nat eqn:H.
  - rewrite (nth_error_nth' (skipn i r) 0) by (rewrite skipn_length; lia). f_equal.
    rewrite <- (firstn_skipn i r) at 2. rewrite app_nth2 by (rewrite firstn_length; lia). f_equal. rewrite firstn_length. lia.
  - replace (nth_error (skipn i r) i) with (@None Z); [reflexivity|]. symmetry. apply nth_error_None. rewrite skipn_length. lia.
Qed.
Lemma alien_next (r : bytes) i : length r = 32%nat -> (i < 32)%nat -> slice_from (skipn i r) 1 = Ok (skipn (S i) r).
Proof.
  intros L Hi. destruct (skipn i r) as [|x l] eqn:E; [apply (f_equal (@length Z)) in E; rewrite skipn_length in E; cbn [length] in E; lia|]. rewrite slice_from_cons. f_equal.
  clear Hi L. revert r E. induction i as [|i IH]; intros r E; [cbn [skipn] in E; subst r; reflexivity|]. destruct r as [|y r]; [discriminate|]. cbn [skipn] in E. change (skipn (S (S i)) (y :: r)) with (skipn (S i) r). apply IH. exact E.
Qed.
Lemma alien_strip_ok r : length r = 32%nat -> forall k f i, (i <= k < 16)%nat -> (k - i < f)%nat -> (forall j, (i <= j < k)%nat -> nth (2 * j) r 0 = 0) -> nth (2 * k) r 0 <> 0 ->
  alien_strip f (Z.of_nat i) (skipn i r) = Ok (skipn k r).
Proof.
  intros L k f. induction f as [|f IH]; intros i Hi Hf Hz Hn; [lia|]. cbn [alien_strip]. rewrite alien_idx by exact L. replace (i <? 16)%nat with true by lia. cbn [bind].
  destruct (Nat.eq_dec i k) as [-> | NE].
  - replace (nth (2 * k) r 0 =? 0) with false by lia. reflexivity.
  - rewrite (Hz i) by lia. change (0 =? 0) with true. cbv iota. rewrite alien_next by lia. cbn [bind]. replace (Z.of_nat i + 1) with (Z.of_nat (S i)) by lia. apply IH; [lia|lia| |exact Hn]. intros j Hj. apply Hz. lia.
Qed.
Lemma alien_strip_panic r : length r = 32%nat -> forall f i, (i <= 16)%nat -> (16 - i < f)%nat -> (forall j, (i <= j < 16)%nat -> nth (2 * j) r 0 = 0) -> alien_strip f (Z.of_nat i) (skipn i r) = Panic.
Proof.
  intros L f. induction f as [|f IH]; intros i Hi Hf Hz; [lia|]. cbn [alien_strip]. rewrite alien_idx by exact L. destruct (i <? 16)%nat eqn:H; [|reflexivity]. cbn [bind].
  rewrite (Hz i) by lia. change (0 =? 0) with true. cbv iota. rewrite alien_next by lia. cbn [bind]. replace (Z.of_nat i + 1) with (Z.of_nat (S i)) by lia. apply IH; [lia|lia|]. intros j Hj. apply Hz. lia.
Qed.
(** Number of bytes removed: the number of zero bytes at the even positions before the first non-zero one there. *)
Fixpoint even_zeros (n : nat) (r : bytes) : nat :=
  match n, r with S n', x :: r' => if x =? 0 then S (even_zeros n' (tl r')) else 0%nat | _, _ => 0%nat end.
Lemma even_zeros_spec n : forall r, (2 * n = length r)%nat ->
  (even_zeros n r <= n)%nat /\ (forall j, (j < even_zeros n r)%nat -> nth (2 * j) r 0 = 0) /\ ((even_zeros n r < n)%nat -> nth (2 * even_zeros n r) r 0 <> 0).
Proof.
  induction n as [|n IH]; intros r L; [cbn; split; [lia|]; split; intros; lia|]. destruct r as [|x [|y r]]; [cbn in L; lia|cbn in L; lia|]. cbn [even_zeros tl].
  destruct (x =? 0) eqn:X.
  - destruct (IH r ltac:(cbn [length] in L; lia)) as (A & B & C). split; [lia|]. split.
    + intros [|j] Hj; [cbn; lia|]. replace (2 * S j)%nat with (S (S (2 * j))) by lia. cbn [nth]. apply B. lia.
    + intros Hj. replace (2 * S (even_zeros n r))%nat with (S (S (2 * even_zeros n r))) by lia. cbn [nth]. apply C. lia.
  - split; [lia|]. split; [intros; lia|]. intros _. cbn. lia.
Qed.
Theorem alien_integer_exact : forall r, is_bytes r -> length r = 32%nat ->
  alien_trim r = (if 128 <=? hd 0 r then Ok (0 :: r) else if (even_zeros 16 r =? 16)%nat then Panic else Ok (skipn (even_zeros 16 r) r)).
Proof.
  intros r B L. destruct (even_zeros_spec 16 r ltac:(lia)) as (A & Z0 & N). unfold alien_trim.
  destruct r as [|x r]; [discriminate|]. change (idx (x :: r) 0) with (Ok x). cbn [bind hd]. rewrite high_bit by (apply Forall_cons_iff in B as [Bx _]; exact Bx).
  destruct (128 <=? x); [reflexivity|]. destruct (even_zeros 16 (x :: r) =? 16)%nat eqn:E.
  - apply (alien_strip_panic (x :: r) L 32 0); [lia|lia|]. intros j Hj. apply Z0. lia.
  - apply (alien_strip_ok (x :: r) L (even_zeros 16 (x :: r)) 32 0); [lia|lia| |apply N; lia]. intros j Hj. apply Z0. lia.
Qed.
Lemma be_num_zeros0 n : be_num (zeros n) = 0.
Proof. rewrite <- (app_nil_r (zeros n)), be_num_zeros. reflexivity. Qed.
Lemma skip_value (r : bytes) k : is_bytes r -> (k <= length r)%nat -> be_num (skipn k r) = be_num r <-> firstn k r = zeros k.
Proof.
  intros B L. assert (E : r = firstn k r ++ skipn k r) by (symmetry; apply firstn_skipn). rewrite E in B. apply is_bytes_app in B as [B1 B2].
  assert (V : be_num r = be_num (firstn k r) * 256 ^ zlen (skipn k r) + be_num (skipn k r)) by (rewrite E at 1; apply be_num_app).
  pose proof (be_num_bound _ B1). pose proof (zlen_nonneg (skipn k r)). assert (0 < 256 ^ zlen (skipn k r)) by lia. split.
  - intros Q. apply be_num_inj; [exact B1|apply is_bytes_zeros|unfold zeros; rewrite repeat_length, firstn_length; lia|]. rewrite be_num_zeros0. nia.
  - intros Q. rewrite Q in V. rewrite be_num_zeros0 in V. lia.
Qed.
(** What the aliencoin encoder does to a whole signature, and what reading its script back gives. *)
Definition alien_lost (r : bytes) : nat := if 128 <=? hd 0 r then 0%nat else even_zeros 16 r.
Theorem alien_script_panics_iff : forall sig pub, is_bytes sig -> length sig = 64%nat ->
  (alien_sigpub sig pub = Panic <-> alien_lost (firstn 32 sig) = 16%nat \/ alien_lost (skipn 32 sig) = 16%nat).
Proof.
  intros sig pub B L. destruct (split64 sig L) as (L1 & L2 & Q1 & Q2). destruct (halves_bytes sig B) as [B1 B2]. unfold alien_sigpub, alien_lost. rewrite Q1. cbn [bind]. rewrite Q2. cbn [bind].
  rewrite !alien_integer_exact by assumption.
  destruct (128 <=? hd 0 (firstn 32 sig)); [|destruct (even_zeros 16 (firstn 32 sig) =? 16)%nat eqn:E1]; cbn [bind]; rewrite ?alien_integer_exact by assumption;
    try (destruct (128 <=? hd 0 (skipn 32 sig)); [|destruct (even_zeros 16 (skipn 32 sig) =? 16)%nat eqn:E2]; cbn [bind]); split; intros Q; try discriminate Q; try reflexivity; try (left; lia); try (right; lia); exfalso; lia.
Qed.
Lemma alien_trim_taken r R : is_bytes r -> length r = 32%nat -> alien_trim r = Ok R ->
  is_bytes R /\ loose_int R /\ taken R = zeros (alien_lost r) ++ skipn (alien_lost r) r /\ (be_num R = be_num r <-> firstn (alien_lost r) r = zeros (alien_lost r)) /\ (nth 0 r 0 <> 0 -> der_int (be_num r) R).
Proof.
  intros B L. rewrite alien_integer_exact by assumption. unfold alien_lost. destruct (even_zeros_spec 16 r ltac:(lia)) as (A & _ & _). destruct (128 <=? hd 0 r) eqn:H.
  - intros E. assert (R = 0 :: r) by congruence. subst R. split; [constructor; [unfold is_byte; lia|exact B]|]. split; [|split; [|split]].
    + split; [cbn [length]; lia|]. intros _ a b l Q. left. congruence.
    + unfold taken. cbn [length]. rewrite L. reflexivity.
    + split; reflexivity.
    + intros _. destruct r as [|x r]; [discriminate|]. cbn [hd] in H. split; [constructor; [unfold is_byte; lia|exact B]|]. split; [discriminate|]. split; [reflexivity|]. split; [cbn; lia|]. intros a b l Q _. injection Q as <- <- <-. lia.
  - destruct (even_zeros 16 r =? 16)%nat eqn:E16; [discriminate|]. intros E. assert (R = skipn (even_zeros 16 r) r) by congruence. subst R.
    assert (LR : length (skipn (even_zeros 16 r) r) = (32 - even_zeros 16 r)%nat) by (rewrite skipn_length; lia).
    split; [|split; [|split; [|split]]].
    + rewrite <- (firstn_skipn (even_zeros 16 r) r) in B. apply is_bytes_app in B as [_ B]. exact B.
    + split; [lia|]. intros Q. lia.
    + unfold taken. rewrite LR. replace (32 - even_zeros 16 r =? 33)%nat with false by lia. replace (32 - (32 - even_zeros 16 r))%nat with (even_zeros 16 r) by lia. reflexivity.
    + apply skip_value; [exact B|lia].
    + intros N. destruct r as [|x r]; [discriminate|]. cbn [nth] in N. cbn [even_zeros]. replace (x =? 0) with false by lia. cbn [skipn]. cbn [hd] in H.
      split; [exact B|]. split; [discriminate|]. split; [reflexivity|]. split; [cbn [hd]; lia|]. intros a b l Q Z0. congruence.
Qed.
(** How many bytes after an aliencoin signature are overwritten while it is read. *)
Definition alien_over (sig : bytes) : nat := if (alien_lost (firstn 32 sig) =? 0)%nat then alien_lost (skipn 32 sig) - 2 else 0.
Lemma alien_trim_len r R : is_bytes r -> length r = 32%nat -> alien_trim r = Ok R -> length R = (if (128 <=? hd 0 r)%Z then 33 else 32 - alien_lost r)%nat.
Proof.
  intros B L. rewrite alien_integer_exact by assumption. unfold alien_lost. destruct (128 <=? hd 0 r); [intros E; injection E as <-; cbn [length]; lia|].
  destruct (even_zeros 16 r =? 16)%nat; [discriminate|]. intros E. assert (R = skipn (even_zeros 16 r) r) by congruence. subst R. rewrite skipn_length, L. reflexivity.
Qed.
Lemma alien_lost_le r : length r = 32%nat -> (alien_lost r <= 16)%nat.
Proof. intros L. unfold alien_lost. destruct (128 <=? hd 0 r); [lia|]. pose proof (even_zeros_spec 16 r ltac:(lia)). lia. Qed.
Theorem alien_script_reads_back : forall sig pub sc, is_bytes sig -> length sig = 64%nat -> length pub = 33%nat -> alien_sigpub sig pub = Ok sc ->
  exists script, sc = zlen script :: script /\
    let s' := zeros (alien_lost (skipn 32 sig)) ++ skipn (alien_lost (skipn 32 sig)) (skipn 32 sig) in
    decode_script script = key_part (zeros (alien_lost (firstn 32 sig)) ++ skipn (alien_lost (firstn 32 sig)) (firstn 32 sig) ++ s') (overwritten (alien_over sig) s' (1 :: 33 :: pub)).
Proof.
  intros sig pub sc B L LP. destruct (split64 sig L) as (L1 & L2 & Q1 & Q2). destruct (halves_bytes sig B) as [B1 B2]. unfold alien_sigpub. rewrite Q1. cbn [bind]. rewrite Q2. cbn [bind].
  destruct (alien_trim (firstn 32 sig)) as [R| |] eqn:E1; cbn [bind]; try discriminate. destruct (alien_trim (skipn 32 sig)) as [S| |] eqn:E2; cbn [bind]; try discriminate.
  destruct (alien_trim_taken _ R B1 L1 E1) as (BR & LR & TR & _). destruct (alien_trim_taken _ S B2 L2 E2) as (BS & LS & TS & _).
  pose proof (alien_trim_len _ R B1 L1 E1) as N1. pose proof (alien_trim_len _ S B2 L2 E2) as N2. pose proof (alien_lost_le _ L1) as M1. pose proof (alien_lost_le _ L2) as M2.
  rewrite der_wrap_eq by (apply LR || apply LS). intros E.
  exists (sig_script R S 1 ++ 33 :: pub). rewrite u8_small in E by (rewrite zlen_app, zlen_cons, sig_script_len; pose proof (loose_zlen R LR); pose proof (loose_zlen S LS); unfold zlen in *; lia).
  split; [clear - E; congruence|]. cbv zeta. rewrite sig_script_head, decode_script_ok; [|exact BR|exact BS|exact LR|exact LS|cbn [length]; lia]. rewrite TR, <- app_assoc, <- TS. f_equal.
  unfold left_after, alien_over. f_equal. unfold alien_lost in *. destruct (128 <=? hd 0 (firstn 32 sig)), (128 <=? hd 0 (skipn 32 sig)); rewrite N1, N2; change (0 =? 0)%nat with true; change (32 <=? 33)%nat with true; cbv iota; [reflexivity|lia| |].
  - destruct (even_zeros 16 (firstn 32 sig) =? 0)%nat eqn:Z0; destruct (32 <=? 32 - even_zeros 16 (firstn 32 sig))%nat eqn:Z1; lia.
  - destruct (even_zeros 16 (firstn 32 sig) =? 0)%nat eqn:Z0; destruct (32 <=? 32 - even_zeros 16 (firstn 32 sig))%nat eqn:Z1; lia.
Qed.
(** The signature survives exactly when every removed byte was zero and no other byte is written over the type and key;
    in particular when neither half starts with a zero byte. *)
Lemma key_part_ok sig rest a b c : key_part sig rest = Ok (a, b, c) <-> a = sig /\ rest = c :: 33 :: b.
Proof.
  destruct rest as [|x [|y rest]]; cbn [key_part]; [split; [discriminate|intros [_ Q]; discriminate Q]..|].
  destruct (y =? 33) eqn:Y; split; [|intros [-> Q]|discriminate|intros [_ Q]].
  - apply Z.eqb_eq in Y. subst y. intros Q. split; congruence.
  - injection Q as -> _ ->; reflexivity.
  - exfalso. assert (y = 33) by (clear - Q; congruence). lia.
Qed.
Theorem alien_round_trip_iff : forall sig pub sc, is_bytes sig -> length sig = 64%nat -> length pub = 33%nat -> alien_sigpub sig pub = Ok sc ->
  (decode_script (tl sc) = Ok (sig, pub, 1) <->
   firstn (alien_lost (firstn 32 sig)) (firstn 32 sig) = zeros (alien_lost (firstn 32 sig)) /\ firstn (alien_lost (skipn 32 sig)) (skipn 32 sig) = zeros (alien_lost (skipn 32 sig)) /\
   firstn (alien_over sig) (1 :: 33 :: pub) = skipn (64 - alien_over sig) sig).
Proof.
  intros sig pub sc B L LP E. destruct (alien_script_reads_back sig pub sc B L LP E) as (script & -> & D). cbn [tl]. cbv zeta in D. rewrite D. clear D E. rewrite key_part_ok.
  destruct (split64 sig L) as (L1 & L2 & _ & _). pose proof (alien_lost_le _ L1) as A1. pose proof (alien_lost_le _ L2) as A2.
  assert (AO : (alien_over sig <= 14)%nat) by (unfold alien_over; destruct (_ =? _)%nat; lia).
  assert (SK : skipn (64 - alien_over sig) sig = skipn (32 - alien_over sig) (skipn 32 sig)) by (rewrite skip_skip; f_equal; lia). rewrite SK. clear SK.
  set (o := alien_over sig) in *. clearbody o.
  pose proof (firstn_skipn 32 sig) as ES. remember (firstn 32 sig) as r eqn:Er. remember (skipn 32 sig) as s eqn:Es. clear Er Es. subst sig.
  remember (alien_lost r) as k eqn:Ek. remember (alien_lost s) as m eqn:Em. clear Ek Em.
  assert (H : forall l n, length l = 32%nat -> (n <= 16)%nat -> length (zeros n ++ skipn n l) = 32%nat) by (intros l n Ll Hn; rewrite app_length, skipn_length; unfold zeros; rewrite repeat_length; lia).
  assert (F : forall l n, length l = 32%nat -> (n <= 16)%nat -> (zeros n ++ skipn n l = l <-> firstn n l = zeros n)).
  { intros l n Ll Hn. split; intros Eq; [|rewrite <- Eq; apply firstn_skipn]. rewrite <- Eq at 1. rewrite firstn_app. unfold zeros. rewrite repeat_length, Nat.sub_diag, firstn_O, app_nil_r. apply firstn_all2. rewrite repeat_length. lia. }
  assert (J : r ++ s = zeros k ++ skipn k r ++ zeros m ++ skipn m s <-> zeros k ++ skipn k r = r /\ zeros m ++ skipn m s = s).
  { rewrite (app_assoc (zeros k)). specialize (H r k L1 A1). remember (zeros k ++ skipn k r) as u eqn:Eu. clear Eu. split.
    - intros Q. assert (Q2 : r = u) by (apply (f_equal (firstn 32)) in Q; rewrite !firstn_app, L1, H, Nat.sub_diag, !firstn_O, !app_nil_r, !firstn_all2 in Q by lia; exact Q).
      subst u. apply app_inv_head in Q. split; [reflexivity|symmetry; exact Q].
    - intros [-> ->]. reflexivity. }
  rewrite J, !F by assumption. split.
  - intros [[F1 F2] O]. split; [exact F1|]. split; [exact F2|]. rewrite (proj2 (F s m L2 A2) F2) in O. apply overwritten_same in O; [exact O|cbn [length]; lia|lia|exact L2].
  - intros (F1 & F2 & O). split; [split; assumption|]. rewrite (proj2 (F s m L2 A2) F2). apply overwritten_same; [cbn [length]; lia|lia|exact L2|exact O].
Qed.
Theorem alien_minimal_without_leading_zero : forall sig pub, is_bytes sig -> length sig = 64%nat -> nth 0 sig 0 <> 0 -> nth 32 sig 0 <> 0 ->
  exists R S, der_int (r_of sig) R /\ der_int (s_of sig) S /\ alien_sigpub sig pub = Ok (let script := sig_script R S 1 ++ 33 :: pub in u8 (zlen script) :: script).
Proof.
  intros sig pub B L N1 N2. destruct (split64 sig L) as (L1 & L2 & Q1 & Q2). destruct (halves_bytes sig B) as [B1 B2].
  assert (M1 : nth 0 (firstn 32 sig) 0 <> 0). { rewrite <- (firstn_skipn 32 sig) in N1. rewrite app_nth1 in N1 by lia. exact N1. }
  assert (M2 : nth 0 (skipn 32 sig) 0 <> 0). { rewrite <- (firstn_skipn 32 sig) in N2. rewrite app_nth2, L1 in N2 by lia. exact N2. }
  assert (G : forall r, is_bytes r -> length r = 32%nat -> nth 0 r 0 <> 0 -> exists R, alien_trim r = Ok R /\ der_int (be_num r) R /\ loose_int R).
  { intros r Br Lr Nr. destruct (alien_trim r) as [R| |] eqn:E.
    - exists R. destruct (alien_trim_taken r R Br Lr E) as (_ & LR & _ & _ & D). split; [reflexivity|]. split; [apply D; exact Nr|exact LR].
    - exfalso. rewrite alien_integer_exact in E by assumption. destruct (128 <=? hd 0 r); [discriminate|]. destruct (even_zeros 16 r =? 16)%nat; discriminate.
    - exfalso. rewrite alien_integer_exact in E by assumption. destruct (128 <=? hd 0 r); [discriminate|]. destruct r as [|x r]; [discriminate|]. cbn [nth] in Nr. cbn [even_zeros] in E. replace (x =? 0) with false in E by lia. discriminate. }
  destruct (G _ B1 L1 M1) as (R & E1 & D1 & LR). destruct (G _ B2 L2 M2) as (S & E2 & D2 & LS). exists R, S. split; [exact D1|]. split; [exact D2|].
  unfold alien_sigpub. rewrite Q1. cbn [bind]. rewrite Q2. cbn [bind]. rewrite E1. cbn [bind]. rewrite E2. cbn [bind]. rewrite der_wrap_eq by (apply LR || apply LS). reflexivity.
Qed.

(** ** Concrete cases *)
Definition ex_sig : bytes := (0 :: 5 :: repeat 7 30) ++ (0x7f :: repeat 9 31).
Definition ex_pub : bytes := 2 :: repeat 0x11 32.
Example ex_sig_meets_hypotheses : is_bytes ex_sig /\ length ex_sig = 64%nat /\ r_of ex_sig <> 0 /\ s_of ex_sig <> 0 /\ length ex_pub = 33%nat.
Proof. split; [repeat (constructor; [unfold is_byte; lia|]); constructor|]. split; [reflexivity|]. split; [vm_compute; discriminate|]. split; [vm_compute; discriminate|reflexivity]. Qed.
Example ex_script : exists R S, encode_sig ex_sig 1 = Ok (sig_script R S 1) /\ length R = 31%nat /\ length S = 32%nat.
Proof. exists (5 :: repeat 7 30), (0x7f :: repeat 9 31). split; [vm_compute; reflexivity|split; reflexivity]. Qed.
Example ex_zero_r_panics : encode_sig (repeat 0 32 ++ repeat 1 32) 1 = Panic.
Proof. vm_compute. reflexivity. Qed.
(** r = 00 05 00 07 07 ...: the aliencoin encoder drops the 05. *)
Definition ex_alien : bytes := (0 :: 5 :: 0 :: repeat 7 29) ++ (0x7f :: repeat 9 31).
Example ex_alien_corrupt : exists sc, alien_sigpub ex_alien ex_pub = Ok sc /\ decode_script (tl sc) = Ok ((0 :: 0 :: 0 :: repeat 7 29) ++ (0x7f :: repeat 9 31), ex_pub, 1).
Proof. eexists. split; [vm_compute; reflexivity|]. vm_compute. reflexivity. Qed.
(** r = 80 00 ... 01, s = 5: a valid signature whose script the decoder refuses, although a non-minimal script is read. *)
Definition ex_hard : bytes := (0x80 :: repeat 0 30 ++ [1]) ++ repeat 0 31 ++ [5].
Example ex_hard_refused : ~ readable ex_hard /\ exists script, encode_script ex_hard ex_pub 1 = Ok script /\ decode_script script = Err /\ decode_sig (firstn 42 script) (skipn 42 script) <> Ok (ex_hard, 1, skipn 42 script).
Proof. split; [intros [Q|Q]; vm_compute in Q; [discriminate Q|apply Q; reflexivity]|]. eexists. split; [vm_compute; reflexivity|]. split; [vm_compute; reflexivity|]. vm_compute. discriminate. Qed.
Example ex_sig_readable : readable ex_sig.
Proof. left. vm_compute. reflexivity. Qed.
(** A short segwit script makes the unchecked decoder panic. *)
Example ex_segwit_short_panics : decode_segwit 1 [71; 48; 68; 2; 32; 1] = Panic.
Proof. vm_compute. reflexivity. Qed.

Print Assumptions signature_script_is_minimal_der.
Print Assumptions minimal_der_unique.
Print Assumptions signature_script_round_trip.
Print Assumptions input_script_round_trip.
Print Assumptions signature_script_reads_as.
Print Assumptions input_script_reads_as.
Print Assumptions input_script_round_trip_iff.
Print Assumptions signature_script_panics_iff.
Print Assumptions signature_script_accepts_exactly.
Print Assumptions input_script_accepts_exactly.
Print Assumptions input_script_malleable.
Print Assumptions witness_script_round_trip.
Print Assumptions witness_script_minimal_iff.
Print Assumptions alien_integer_exact.
Print Assumptions alien_script_panics_iff.
Print Assumptions alien_script_reads_back.
Print Assumptions alien_round_trip_iff.
Print Assumptions alien_minimal_without_leading_zero.
