(** The reader of GoUnjson.v accepts exactly the texts of JsonGrammar.v and gives what they say. *)
From Coq Require Import String ZArith List Bool Lia ZifyBool ZifyNat.
From Verif Require Import Go GoFacts Base58Model GoJson Json GoUnjson GoUnjsonFacts JsonGrammar.
Import ListNotations.
Open Scope Z_scope.
Ltac Zify.zify_post_hook ::= idtac.

(** ** Strings *)
Lemma hexdigit_val c n : hexdigit c n <-> hex_val c = Some n.
Proof.
  unfold hexdigit, hex_val. destruct ((48 <=? c) && (c <=? 57)) eqn:A; [split; [intros H; f_equal; lia|intros H; assert (c - 48 = n) by congruence; lia]|].
  destruct ((97 <=? c) && (c <=? 102)) eqn:B; [split; [intros H; f_equal; lia|intros H; assert (c - 87 = n) by congruence; lia]|].
  destruct ((65 <=? c) && (c <=? 70)) eqn:C; [split; [intros H; f_equal; lia|intros H; assert (c - 55 = n) by congruence; lia]|].
  split; [lia|discriminate].
Qed.
Lemma u4_inv s u r : u4 s = Some (u, r) -> exists h, s = h ++ r /\ hex4 h u.
Proof.
  unfold u4. destruct s as [|a [|b [|c [|d s]]]]; try discriminate. destruct (hex_val a) as [na|] eqn:A; [|discriminate]. destruct (hex_val b) as [nb|] eqn:B; [|discriminate]. destruct (hex_val c) as [nc|] eqn:C; [|discriminate]. destruct (hex_val d) as [nd|] eqn:D; [|discriminate].
  intros E. exists [a; b; c; d]. split; [cbn [app]; congruence|]. exists a, b, c, d, na, nb, nc, nd. split; [reflexivity|]. do 4 (split; [apply hexdigit_val; assumption|]). congruence.
Qed.
Lemma u4_app h u r : hex4 h u -> u4 (h ++ r) = Some (u, r).
Proof.
  intros (a & b & c & d & na & nb & nc & nd & -> & A & B & C & D & ->). apply hexdigit_val in A, B, C, D. cbn [app]. unfold u4. rewrite A, B, C, D. reflexivity.
Qed.
Lemma hex4_range h u : hex4 h u -> 0 <= u < 65536.
Proof. intros (a & b & c & d & na & nb & nc & nd & _ & A & B & C & D & ->). unfold hexdigit in *. lia. Qed.
Lemma hex4_length h u : hex4 h u -> length h = 4%nat.
Proof. intros (a & b & c & d & na & nb & nc & nd & -> & _). reflexivity. Qed.
Lemma esc_u4_inv s u r : esc_u4 s = Some (u, r) -> exists h, s = 92 :: 117 :: h ++ r /\ hex4 h u.
Proof.
  unfold esc_u4. destruct s as [|x [|y s]]; try discriminate. destruct ((x =? 92) && (y =? 117)) eqn:E; [|discriminate]. intros U. apply u4_inv in U as (h & -> & H). exists h. split; [|exact H]. f_equal; [lia|]. f_equal. lia.
Qed.
Lemma not_quote_hex n : ~ hexdigit 34 n. Proof. unfold hexdigit. lia. Qed.
Lemma esc_u4_body t rest u r : esc_u4 (t ++ 34 :: rest) = Some (u, r) -> exists h r', t = 92 :: 117 :: h ++ r' /\ hex4 h u /\ r = r' ++ 34 :: rest.
Proof.
  intros E. apply esc_u4_inv in E as (h & E & (a & b & c & d & na & nb & nc & nd & -> & A & B & C & D & U)).
  destruct t as [|x0 [|x1 [|x2 [|x3 [|x4 [|x5 t]]]]]]; cbn [app] in E.
  1-6: exfalso; pose proof (f_equal (fun l => nth 0 l 0) E) as E0; pose proof (f_equal (fun l => nth 1 l 0) E) as E1; pose proof (f_equal (fun l => nth 2 l 0) E) as E2; pose proof (f_equal (fun l => nth 3 l 0) E) as E3; pose proof (f_equal (fun l => nth 4 l 0) E) as E4; pose proof (f_equal (fun l => nth 5 l 0) E) as E5; cbn [nth] in *; unfold hexdigit in *; lia.
  injection E as -> -> -> -> -> -> <-. exists [a; b; c; d], t. split; [reflexivity|]. split; [|reflexivity]. exists a, b, c, d, na, nb, nc, nd. auto 8.
Qed.
Lemma short_iff e x : short_escape e = Some x <-> In (e, x) short_escapes.
Proof.
  unfold short_escape, short_escapes. split.
  - destruct ((e =? 34) || (e =? 92) || (e =? 47)) eqn:A.
    { intros H. assert (x = e) by congruence. subst x. assert (e = 34 \/ e = 92 \/ e = 47) as [-> | [-> | ->]] by lia; cbn; auto. }
    destruct (e =? 98) eqn:B; [intros H; assert (x = 8) by congruence; subst; replace e with 98 by lia; cbn; auto 10|].
    destruct (e =? 102) eqn:C; [intros H; assert (x = 12) by congruence; subst; replace e with 102 by lia; cbn; auto 10|].
    destruct (e =? 110) eqn:D; [intros H; assert (x = 10) by congruence; subst; replace e with 110 by lia; cbn; auto 10|].
    destruct (e =? 114) eqn:F; [intros H; assert (x = 13) by congruence; subst; replace e with 114 by lia; cbn; auto 10|].
    destruct (e =? 116) eqn:G; [intros H; assert (x = 9) by congruence; subst; replace e with 116 by lia; cbn; auto 10|]. discriminate.
  - intros H. cbn [In] in H. repeat (destruct H as [H|H]; [injection H as <- <-; reflexivity|]). contradiction.
Qed.
Lemma scalar_u u : 0 <= u < 65536 -> (55296 <=? u) && (u <? 57344) = false -> scalar u.
Proof. unfold scalar. lia. Qed.
Lemma scalar_bad : scalar 65533. Proof. unfold scalar. lia. Qed.
Lemma utf8_head c b0 r : scalar c -> utf8 c = b0 :: r -> 128 <= b0 -> (1 <= length r)%nat.
Proof.
  unfold utf8. intros S. destruct (c <? 128) eqn:A; [intros E; assert (c = b0) by congruence; lia|]. destruct (c <? 2048); [intros E _; injection E as _ <-; cbn; lia|]. destruct (c <? 65536); intros E _; injection E as _ <-; cbn; lia.
Qed.
Lemma utf8_high c : scalar c -> 128 <= c -> Forall (fun b => 128 <= b) (utf8 c).
Proof.
  unfold utf8. intros S H. pose proof (Z.div_pos c 64 ltac:(lia) ltac:(lia)). pose proof (Z.div_pos c 4096 ltac:(lia) ltac:(lia)). pose proof (Z.div_pos c 262144 ltac:(lia) ltac:(lia)).
  pose proof (Z.mod_pos_bound c 64 ltac:(lia)). pose proof (Z.mod_pos_bound (c / 64) 64 ltac:(lia)). pose proof (Z.mod_pos_bound (c / 4096) 64 ltac:(lia)).
  destruct (c <? 128) eqn:A; [lia|]. destruct (c <? 2048); [repeat constructor; lia|]. destruct (c <? 65536); repeat constructor; lia.
Qed.
(** What one step of the reader of strings sees at a byte from 128 on. *)
Lemma step_bad b r : 128 <= b -> rune_step b r = (65533, 0%nat) -> forall c x, scalar c -> b :: r <> utf8 c ++ x.
Proof.
  intros H R c x S E. destruct (rune_step_utf8 c x S) as (b0 & r0 & n & U & L & R0). rewrite U in E. cbn [app] in E. assert (b = b0) by congruence. assert (r = r0 ++ x) by congruence. subst b0 r.
  pose proof (utf8_head c b r0 S U H). assert (n = 0%nat) by congruence. lia.
Qed.
Lemma rune_step_any b0 r c n : 128 <= b0 -> rune_step b0 r = (c, n) -> (c = 65533 /\ n = 0%nat) \/
  (b0 :: firstn n r = utf8 c /\ Forall (fun b => 128 <= b) (firstn n r) /\ (n <= length r)%nat /\ scalar c /\ 128 <= c).
Proof.
  intros H R. destruct (Z_lt_dec b0 256) as [L|L]; [exact (rune_step_ok b0 r c n ltac:(lia) R)|]. left. unfold rune_step in R. replace (b0 <? 128) with false in R by lia. replace ((194 <=? b0) && (b0 <=? 223)) with false in R by lia.
  replace ((224 <=? b0) && (b0 <=? 239)) with false in R by lia. replace ((240 <=? b0) && (b0 <=? 244)) with false in R by lia. split; congruence.
Qed.
Lemma gchars_sound f : forall s v r, gchars f s = Some (v, r) -> exists t, s = t ++ 34 :: r /\ chars t v.
Proof.
  induction f as [|f IH]; intros s v r E; [discriminate|]. destruct s as [|x s]; [discriminate|]. cbn [gchars] in E.
  destruct (x =? 34) eqn:Q. { exists []. split; [cbn [app]; f_equal; [lia|congruence]|]. assert (Ev : v = []) by congruence. subst v. constructor. }
  assert (Em : forall c o, emit c o = Some (v, r) -> exists v', o = Some (v', r) /\ v = c ++ v').
  { intros c o. destruct o as [[v' r']|]; [|discriminate]. cbn [emit]. intros G. exists v'. split; congruence. }
  destruct (x =? 92) eqn:Qb.
  { assert (x = 92) by lia. subst x. destruct s as [|e s]; [discriminate|]. destruct (e =? 117) eqn:Qu.
    - assert (e = 117) by lia. subst e. destruct (u4 s) as [[u s2]|] eqn:U; [|discriminate]. apply u4_inv in U as (h & -> & H). pose proof (hex4_range _ _ H) as R.
      destruct ((55296 <=? u) && (u <? 57344)) eqn:Sg.
      + destruct (esc_u4 s2) as [[lo s3]|] eqn:E4.
        * destruct ((u <? 56320) && (56320 <=? lo) && (lo <? 57344)) eqn:Pr.
          { apply Em in E as (v' & E & ->). apply esc_u4_inv in E4 as (h2 & -> & H2). apply IH in E as (t & -> & Ct).
            exists (92 :: 117 :: h ++ 92 :: 117 :: h2 ++ t). split; [cbn [app]; rewrite <- app_assoc; cbn [app]; rewrite <- app_assoc; reflexivity|].
            rewrite utf8_rune_scalar by (unfold scalar; lia). replace ((u - 55296) * 1024 + (lo - 56320) + 65536) with (65536 + (u - 55296) * 1024 + (lo - 56320)) by lia. constructor; (assumption || lia). }
          { apply Em in E as (v' & E & ->). apply IH in E as (t & -> & Ct). exists (92 :: 117 :: h ++ t). split; [cbn [app]; rewrite <- app_assoc; reflexivity|]. rewrite utf8_rune_scalar by apply scalar_bad. eapply ch_lone; [exact H|lia| |exact Ct].
            intros Hu h' lo' q H' Hl ->. assert (lo = lo') by (cbn [app] in E4; unfold esc_u4 in E4; change ((92 =? 92) && (117 =? 117)) with true in E4; cbv iota in E4; rewrite <- app_assoc, (u4_app _ _ _ H') in E4; congruence). lia. }
        * apply Em in E as (v' & E & ->). apply IH in E as (t & -> & Ct). exists (92 :: 117 :: h ++ t). split; [cbn [app]; rewrite <- app_assoc; reflexivity|]. rewrite utf8_rune_scalar by apply scalar_bad. eapply ch_lone; [exact H|lia| |exact Ct].
          intros Hu h' lo' q H' Hl ->. cbn [app] in E4. unfold esc_u4 in E4. change ((92 =? 92) && (117 =? 117)) with true in E4. cbv iota in E4. rewrite <- app_assoc, (u4_app _ _ _ H') in E4. discriminate.
      + apply Em in E as (v' & E & ->). apply IH in E as (t & -> & Ct). exists (92 :: 117 :: h ++ t). split; [cbn [app]; rewrite <- app_assoc; reflexivity|]. pose proof (scalar_u _ R Sg) as Sc. rewrite utf8_rune_scalar by exact Sc. constructor; assumption.
    - destruct (short_escape e) as [y|] eqn:Se; [|discriminate]. apply Em in E as (v' & E & ->). apply IH in E as (t & -> & Ct). exists (92 :: e :: t). split; [reflexivity|]. apply short_iff in Se. cbn [app]. constructor; assumption. }
  destruct (x <? 32) eqn:Q32; [discriminate|]. destruct (rune_step x s) as [c n] eqn:R. apply Em in E as (v' & E & ->). destruct (x <? 128) eqn:Q128.
  - unfold rune_step in R. rewrite Q128 in R. assert (c = x) by congruence. assert (n = 0%nat) by congruence. subst c n. cbn [skipn] in E. apply IH in E as (t & -> & Ct). exists (x :: t). split; [reflexivity|].
    assert (Sx : scalar x) by (unfold scalar; lia). rewrite utf8_rune_scalar by exact Sx. assert (U : utf8 x = [x]) by (unfold utf8; rewrite Q128; reflexivity). change (x :: t) with ([x] ++ t). rewrite <- U. constructor; (assumption || lia).
  - pose proof R as R0. apply rune_step_any in R as [[-> ->]|(U & F & Ln & Sc & G8)]; [| |lia].
    + cbn [skipn] in E. rewrite utf8_rune_scalar by apply scalar_bad. apply IH in E as (t & -> & Ct). exists (x :: t). split; [reflexivity|]. apply ch_bad; [lia| |exact Ct].
      intros c q Sc Eq. apply (step_bad x (t ++ 34 :: r) ltac:(lia) R0 c (q ++ 34 :: r) Sc). change (x :: t ++ 34 :: r) with ((x :: t) ++ 34 :: r). rewrite Eq, <- app_assoc. reflexivity.
    + rewrite utf8_rune_scalar by exact Sc. apply IH in E as (t & Et & Ct). exists (utf8 c ++ t). split.
      * rewrite <- U, <- app_assoc, <- Et. cbn [app]. rewrite firstn_skipn. reflexivity.
      * constructor; (assumption || lia).
Qed.
Lemma gchars_complete t v : chars t v -> forall g rest, (length t < g)%nat -> gchars g (t ++ 34 :: rest) = Some (v, rest).
Proof.
  induction 1 as [|c t v Sc H32 N34 N92 C IH|b t v Hb Nu C IH|e x t v Se C IH|h u t v H Sc C IH|h1 h2 hi lo t v H1 H2 Hh Hl C IH|h u t v H Hu Nl C IH]; intros g rest L; (destruct g as [|g]; [lia|]).
  - reflexivity.
  - rewrite <- app_assoc. rewrite app_length in L. destruct (rune_step_utf8 c (t ++ 34 :: rest) Sc) as (b0 & r0 & n & U & Ln & R). rewrite U in *. cbn [app gchars length] in *.
    assert (Hb0 : b0 <> 34 /\ b0 <> 92 /\ 32 <= b0).
    { destruct (Z_lt_dec c 128) as [Lc|Lc]; [unfold utf8 in U; replace (c <? 128) with true in U by lia; injection U as <- _; lia|]. pose proof (utf8_high c Sc ltac:(lia)) as F. rewrite U in F. inversion F; subst. lia. }
    replace (b0 =? 34) with false by lia. replace (b0 =? 92) with false by lia. replace (b0 <? 32) with false by lia. rewrite R, <- Ln, skipn_app, skipn_all, Nat.sub_diag. cbn [skipn app]. rewrite IH by (assumption || lia). cbn [emit]. rewrite utf8_rune_scalar, U by exact Sc. reflexivity.
  - cbn [app gchars length] in *. replace (b =? 34) with false by lia. replace (b =? 92) with false by lia. replace (b <? 32) with false by lia. destruct (rune_step b (t ++ 34 :: rest)) as [c n] eqn:R.
    apply rune_step_any in R as [[-> ->]|(U & F & Ln & Sc & G8)]; [| |lia].
    + cbn [skipn]. rewrite IH by (assumption || lia). cbn [emit]. rewrite utf8_rune_scalar by apply scalar_bad. reflexivity.
    + exfalso. assert (Lt : (n <= length t)%nat).
      { destruct (le_gt_dec n (length t)) as [G|G]; [exact G|exfalso]. rewrite Forall_forall in F. specialize (F 34). assert (I : In 34 (firstn n (t ++ 34 :: rest))); [|specialize (F I); lia].
        rewrite firstn_app. apply in_or_app. right. destruct (n - length t)%nat eqn:D; [lia|]. left. reflexivity. }
      apply (Nu c (skipn n t) Sc). rewrite <- U, firstn_app. replace (n - length t)%nat with 0%nat by lia. cbn [firstn app]. rewrite app_nil_r, firstn_skipn. reflexivity.
  - cbn [app gchars length] in *. change (92 =? 34) with false. change (92 =? 92) with true. cbv iota. apply short_iff in Se. replace (e =? 117) with false; [rewrite Se, IH by (assumption || lia); reflexivity|].
    symmetry. destruct (e =? 117) eqn:Q; [|reflexivity]. assert (e = 117) by lia. subst. discriminate Se.
  - cbn [app gchars length] in *. rewrite app_length in L. change (92 =? 34) with false. change (92 =? 92) with true. change (117 =? 117) with true. cbv iota.
    rewrite <- app_assoc, (u4_app _ _ _ H). pose proof (hex4_range _ _ H). replace ((55296 <=? u) && (u <? 57344)) with false by (unfold scalar in Sc; lia). rewrite IH by (assumption || lia). cbn [emit]. rewrite utf8_rune_scalar by exact Sc. reflexivity.
  -
    cbn [app gchars length] in *. rewrite app_length in L. cbn [length] in L. rewrite app_length in L. change (92 =? 34) with false. change (92 =? 92) with true. change (117 =? 117) with true. cbv iota.
    rewrite <- app_assoc, (u4_app _ _ _ H1). replace ((55296 <=? hi) && (hi <? 57344)) with true by lia. cbn [app]. unfold esc_u4. change ((92 =? 92) && (117 =? 117)) with true. cbv iota. rewrite <- app_assoc, (u4_app _ _ _ H2).
    replace ((hi <? 56320) && (56320 <=? lo) && (lo <? 57344)) with true by lia. rewrite IH by (assumption || lia). cbn [emit]. rewrite utf8_rune_scalar by (unfold scalar; lia). replace ((hi - 55296) * 1024 + (lo - 56320) + 65536) with (65536 + (hi - 55296) * 1024 + (lo - 56320)) by lia. reflexivity.
  - cbn [app gchars length] in *. rewrite app_length in L. change (92 =? 34) with false. change (92 =? 92) with true. change (117 =? 117) with true. cbv iota.
    rewrite <- app_assoc, (u4_app _ _ _ H). replace ((55296 <=? u) && (u <? 57344)) with true by lia. rewrite IH by (assumption || lia). cbn [emit]. rewrite utf8_rune_scalar by apply scalar_bad.
    destruct (esc_u4 (t ++ 34 :: rest)) as [[lo r3]|] eqn:E4; [|reflexivity]. destruct ((u <? 56320) && (56320 <=? lo) && (lo <? 57344)) eqn:Pr; [|reflexivity]. exfalso. apply esc_u4_body in E4 as (h' & r' & -> & H' & _). apply (Nl ltac:(lia) h' lo r' H' ltac:(lia)). reflexivity.
Qed.
(** ** White space and numbers *)
Lemma is_ws_iff c : is_ws c = true <-> c = 32 \/ c = 9 \/ c = 10 \/ c = 13.
Proof. unfold is_ws. lia. Qed.
Lemma skip_split s : exists w, white w /\ s = w ++ skip_ws s.
Proof.
  induction s as [|c s (w & W & E)]; [exists []; split; [constructor|reflexivity]|]. cbn [skip_ws]. destruct (is_ws c) eqn:Q; [|exists []; split; [constructor|reflexivity]]. exists (c :: w). split; [constructor; [apply is_ws_iff; exact Q|exact W]|]. cbn [app]. congruence.
Qed.
Lemma skip_white w s : white w -> skip_ws (w ++ s) = skip_ws s.
Proof. induction 1 as [|c w H F IH]; [reflexivity|]. cbn [app skip_ws]. apply is_ws_iff in H. rewrite H. exact IH. Qed.
(** What may stand after a value. *)
Definition stops (rest : list Z) : Prop := match rest with [] => True | x :: _ => is_ws x = true \/ x = 44 \/ x = 93 \/ x = 125 end.
Lemma stops_not rest x r : stops rest -> rest = x :: r -> x <> 46 /\ x <> 101 /\ x <> 69 /\ ~ digit x.
Proof. intros S ->. unfold stops in S. unfold is_ws, digit in *. lia. Qed.
Lemma span_app ds rest : Forall digit ds -> (forall x r, rest = x :: r -> ~ digit x) -> span_digits (ds ++ rest) = (ds, rest).
Proof.
  intros F N. induction F as [|d ds H F IH].
  - cbn [app]. destruct rest as [|x r]; [reflexivity|]. cbn [span_digits]. specialize (N x r eq_refl). unfold digit in N. unfold is_digit. replace ((48 <=? x) && (x <=? 57)) with false by lia. reflexivity.
  - cbn [app span_digits]. unfold digit in H. unfold is_digit at 1. replace ((48 <=? d) && (d <=? 57)) with true by lia. rewrite IH. reflexivity.
Qed.
Lemma span_inv s : forall a b, span_digits s = (a, b) -> s = a ++ b /\ Forall digit a.
Proof.
  induction s as [|c s IH]; intros a b E; [cbn in E; injection E as <- <-; split; [reflexivity|constructor]|]. cbn [span_digits] in E. destruct (is_digit c) eqn:D; [|injection E as <- <-; split; [reflexivity|constructor]].
  destruct (span_digits s) as [a' b'] eqn:Q. injection E as <- <-. destruct (IH a' b' eq_refl) as [-> F]. split; [reflexivity|]. constructor; [unfold is_digit in D; unfold digit; lia|exact F].
Qed.
Lemma gint_sound s i r : gint s = Some (i, r) -> s = i ++ r /\ int_part i.
Proof.
  unfold gint. destruct s as [|c s]; [discriminate|]. destruct (c =? 48) eqn:Q; [intros E; injection E as <- <-; split; [cbn [app]; f_equal; lia|left; reflexivity]|]. destruct (is_digit c) eqn:D; [|discriminate].
  intros E. assert (E' : span_digits (c :: s) = (i, r)) by congruence. cbn [span_digits] in E'. rewrite D in E'. destruct (span_digits s) as [a b] eqn:Sp. assert (i = c :: a) by congruence. assert (b = r) by congruence. subst i b. apply span_inv in Sp as [-> F].
  split; [reflexivity|]. right. exists c, a. split; [reflexivity|]. unfold is_digit in D. split; [lia|exact F].
Qed.
Lemma gfrac_sound s i r : gfrac s = Some (i, r) -> s = i ++ r /\ frac_part i.
Proof.
  unfold gfrac. destruct s as [|c s]; [intros E; injection E as <- <-; split; [reflexivity|left; reflexivity]|]. destruct (c =? 46) eqn:Q; [|intros E; injection E as <- <-; split; [reflexivity|left; reflexivity]].
  destruct (span_digits s) as [a b] eqn:Sp. apply span_inv in Sp as [-> F]. destruct a as [|d a]; [discriminate|]. intros E. assert (i = 46 :: d :: a) by congruence. assert (b = r) by congruence. subst i b. split; [cbn [app]; f_equal; lia|]. right. exists (d :: a). split; [reflexivity|]. split; [discriminate|exact F].
Qed.
Lemma gexp_sound s i r : gexp s = Some (i, r) -> s = i ++ r /\ exp_part i.
Proof.
  unfold gexp. destruct s as [|c s]; [intros E; injection E as <- <-; split; [reflexivity|left; reflexivity]|]. destruct ((c =? 101) || (c =? 69)) eqn:Q; [|intros E; injection E as <- <-; split; [reflexivity|left; reflexivity]].
  assert (G : exists sg s', (match s with x :: r' => if (x =? 43) || (x =? 45) then ([x], r') else ([], s) | [] => ([], s) end) = (sg, s') /\ s = sg ++ s' /\ (sg = [] \/ sg = [43] \/ sg = [45])).
  { destruct s as [|x s]; [exists [], []; auto|]. destruct ((x =? 43) || (x =? 45)) eqn:Qx; [exists [x], s|exists [], (x :: s)]; (split; [reflexivity|]; split; [reflexivity|]); [right|left; reflexivity]. assert (x = 43 \/ x = 45) as [-> | ->] by lia; auto. }
  destruct G as (sg & s' & -> & -> & Hs). destruct (span_digits s') as [a b] eqn:Sp. apply span_inv in Sp as [-> F]. destruct a as [|d a]; [discriminate|]. intros E. assert (i = c :: sg ++ d :: a) by congruence. assert (b = r) by congruence. subst i b. split; [cbn [app]; rewrite <- app_assoc; reflexivity|].
  right. exists c, sg, (d :: a). split; [reflexivity|]. split; [lia|]. split; [exact Hs|]. split; [discriminate|exact F].
Qed.
Lemma gnum_sound s t r : gnum s = Some (t, r) -> s = t ++ r /\ number_text t.
Proof.
  unfold gnum. assert (G : exists sg s', (match s with x :: r' => if x =? 45 then ([45], r') else ([], s) | [] => ([], s) end) = (sg, s') /\ s = sg ++ s' /\ (sg = [] \/ sg = [45])).
  { destruct s as [|x s]; [exists [], []; auto|]. destruct (x =? 45) eqn:Qx; [exists [45], s|exists [], (x :: s)]; (split; [reflexivity|]; split; [cbn [app]; try (f_equal; lia); reflexivity|]); auto. }
  destruct G as (sg & s' & -> & -> & Hs). destruct (gint s') as [[i s1]|] eqn:E1; [|discriminate]. destruct (gfrac s1) as [[f s2]|] eqn:E2; [|discriminate]. destruct (gexp s2) as [[e s3]|] eqn:E3; [|discriminate].
  apply gint_sound in E1 as [-> Hi]. apply gfrac_sound in E2 as [-> Hf]. apply gexp_sound in E3 as [-> He]. intros E. assert (t = sg ++ i ++ f ++ e) by congruence. assert (s3 = r) by congruence. subst t s3. split; [rewrite <- !app_assoc; reflexivity|]. exists sg, i, f, e. auto.
Qed.
Lemma gexp_complete e rest : exp_part e -> stops rest -> gexp (e ++ rest) = Some (e, rest).
Proof.
  intros [-> | (c & sg & ds & -> & Hc & Hs & Nd & Fd)] St.
  - cbn [app]. destruct rest as [|x r]; [reflexivity|]. pose proof (stops_not _ _ _ St eq_refl). cbn [gexp]. replace ((x =? 101) || (x =? 69)) with false by lia. reflexivity.
  - cbn [app gexp]. replace ((c =? 101) || (c =? 69)) with true by lia. rewrite <- app_assoc. destruct ds as [|d ds]; [contradiction|].
    assert (G : (match sg ++ (d :: ds) ++ rest with x :: r' => if (x =? 43) || (x =? 45) then ([x], r') else ([], sg ++ (d :: ds) ++ rest) | [] => ([], sg ++ (d :: ds) ++ rest) end) = (sg, (d :: ds) ++ rest)).
    { destruct Hs as [-> | [-> | ->]]; try reflexivity. cbn [app]. inversion Fd as [|? ? Hd _]; subst. unfold digit in Hd. replace ((d =? 43) || (d =? 45)) with false by lia. reflexivity. }
    rewrite G, span_app; [reflexivity|exact Fd|]. intros x r E. apply (stops_not _ _ _ St E).
Qed.
Lemma exp_head e rest x r : exp_part e -> stops rest -> e ++ rest = x :: r -> x <> 46 /\ ~ digit x.
Proof.
  intros [-> | (c & sg & ds & -> & Hc & _)] St E; cbn [app] in E.
  - pose proof (stops_not _ _ _ St E). tauto.
  - assert (x = c) by congruence. unfold digit. lia.
Qed.
Lemma frac_head f e rest x r : frac_part f -> exp_part e -> stops rest -> f ++ e ++ rest = x :: r -> ~ digit x.
Proof.
  intros [-> | (ds & -> & _)] He St E; cbn [app] in E.
  - apply (exp_head _ _ _ _ He St E).
  - assert (x = 46) by congruence. unfold digit. lia.
Qed.
Lemma gnum_complete t rest : number_text t -> stops rest -> gnum (t ++ rest) = Some (t, rest).
Proof.
  intros (sg & i & f & e & -> & Hs & Hi & Hf & He) St. rewrite <- !app_assoc. unfold gnum.
  assert (Ni : exists d i', i = d :: i' /\ digit d) by (destruct Hi as [-> | (d & ds & -> & Hd & _)]; eexists _, _; (split; [reflexivity|unfold digit; lia])).
  assert (G : (match sg ++ i ++ f ++ e ++ rest with x :: r' => if x =? 45 then ([45], r') else ([], sg ++ i ++ f ++ e ++ rest) | [] => ([], sg ++ i ++ f ++ e ++ rest) end) = (sg, i ++ f ++ e ++ rest)).
  { destruct Hs as [-> | ->]; [|reflexivity]. destruct Ni as (d & i' & -> & Hd). cbn [app]. unfold digit in Hd. replace (d =? 45) with false by lia. reflexivity. }
  rewrite G. assert (Gi : gint (i ++ f ++ e ++ rest) = Some (i, f ++ e ++ rest)).
  { destruct Hi as [-> | (d & ds & -> & Hd & Fd)]; [reflexivity|]. unfold gint. change ((d :: ds) ++ f ++ e ++ rest) with (d :: ds ++ f ++ e ++ rest). cbv iota. replace (d =? 48) with false by lia. unfold is_digit. replace ((48 <=? d) && (d <=? 57)) with true by lia.
    change (d :: ds ++ f ++ e ++ rest) with ((d :: ds) ++ f ++ e ++ rest). rewrite span_app; [reflexivity|constructor; [unfold digit; lia|exact Fd]|]. intros x r E. exact (frac_head _ _ _ _ _ Hf He St E). }
  rewrite Gi. assert (Gf : gfrac (f ++ e ++ rest) = Some (f, e ++ rest)).
  { destruct Hf as [-> | (ds & -> & Nd & Fd)].
    - cbn [app]. destruct (e ++ rest) as [|x r] eqn:E; [reflexivity|]. pose proof (exp_head _ _ _ _ He St E). cbn [gfrac]. replace (x =? 46) with false by lia. reflexivity.
    - cbn [app gfrac]. change (46 =? 46) with true. cbv iota. rewrite span_app; [destruct ds; [contradiction|reflexivity]|exact Fd|]. intros x r E. apply (exp_head _ _ _ _ He St E). }
  rewrite Gf, gexp_complete by assumption. reflexivity.
Qed.
(** ** Values *)
Definition opens (t : list Z) : Prop := exists x r, t = x :: r /\ is_ws x = false /\ x <> 93 /\ x <> 125.
Lemma value_opens t v : value_text t v -> opens t.
Proof.
  assert (O : forall x r, is_ws x = false -> x <> 93 -> x <> 125 -> opens (x :: r)) by (intros x r; exists x, r; auto).
  intros V. destruct V as [| | |t N|t s C|w W|t l E|w W|t l E]; try (apply O; [reflexivity|lia|lia]); try (cbv [str]; apply O; [reflexivity|discriminate|discriminate]).
  destruct N as (sg & i & f & e & -> & Hs & Hi & _). destruct Hs as [-> | ->]; [|apply O; [reflexivity|lia|lia]].
  destruct Hi as [-> | (d & ds & -> & Hd & _)]; [eexists _, _; split; [reflexivity|]; split; [reflexivity|lia]|]. exists d, (ds ++ f ++ e). split; [reflexivity|]. unfold is_ws. lia.
Qed.
(** After the white space the text goes on with something other than a closing bracket. *)
Definition goes_on (t : list Z) : Prop := forall s, exists x r, skip_ws (t ++ s) = x :: r /\ x <> 93 /\ x <> 125.
Lemma element_goes_on t v : element_text t v -> goes_on t.
Proof.
  intros E s. inversion E as [w1 t1 w2 v1 W1 V W2]; subst. destruct (value_opens _ _ V) as (x & r & -> & Q & N). rewrite <- app_assoc, skip_white by exact W1. rewrite <- app_assoc. cbn [app skip_ws]. rewrite Q. eauto.
Qed.
Lemma goes_on_app t u : goes_on t -> goes_on (t ++ u).
Proof. intros G s. rewrite <- app_assoc. apply G. Qed.
Lemma elements_go_on t l : elements_text t l -> goes_on t.
Proof. intros E. inversion E; subst; [|apply goes_on_app]; eapply element_goes_on; eassumption. Qed.
Lemma member_goes_on t m : member_text t m -> goes_on t.
Proof. intros E s. inversion E as [w1 k n w2 t1 v W1 C W2 El]; subst. rewrite <- app_assoc, skip_white by exact W1. cbn [app skip_ws]. change (is_ws 34) with false. cbv iota. eexists _, _. split; [reflexivity|lia]. Qed.
Lemma members_go_on t l : members_text t l -> goes_on t.
Proof. intros E. inversion E; subst; [|apply goes_on_app]; eapply member_goes_on; eassumption. Qed.
Lemma gread_white w f s : white w -> gread f (w ++ s) = gread f s.
Proof. intros W. destruct f as [|f]; [reflexivity|]. cbn [gread]. rewrite skip_white by exact W. reflexivity. Qed.
Lemma white_stops w rest : white w -> ends rest -> stops (w ++ rest).
Proof. intros W E. destruct W as [|c w H W]; cbn [app stops]; [destruct rest as [|x r]; [exact I|]; cbn in E; cbn; tauto|left; apply is_ws_iff; exact H]. Qed.
Lemma beq_firstn k (l : list Z) x r : (forall y t, l = y :: t -> x <> y) -> l <> [] -> beq (firstn (S k) (x :: r)) l = false.
Proof. intros H N. destruct l as [|y t]; [contradiction|]. cbn [firstn beq]. specialize (H y t eq_refl). replace (x =? y) with false by lia. reflexivity. Qed.
Definition val_c (t : list Z) (v : jval) : Prop := forall f rest, stops rest -> (2 * length t + 1 <= f)%nat -> gread f (t ++ rest) = Some (v, rest).
Definition el_c (t : list Z) (v : jval) : Prop := forall f rest, ends rest -> (2 * length t + 1 <= f)%nat -> exists r, gread f (t ++ rest) = Some (v, r) /\ skip_ws r = rest.
Definition els_c (t : list Z) (l : list jval) : Prop := forall f rest, (2 * length t + 2 <= f)%nat -> gelems f (t ++ 93 :: rest) = Some (l, rest).
Definition mem_c (t : list Z) (m : list Z * jval) : Prop := forall f tl, ends tl -> (2 * length t + 2 <= S f)%nat ->
  gmembers (S f) (t ++ tl) = match tl with x :: r => if x =? 125 then Some ([m], r) else if x =? 44 then match gmembers f r with Some (l, rest) => Some (m :: l, rest) | None => None end else None | [] => None end.
Definition mems_c (t : list Z) (l : list (list Z * jval)) : Prop := forall f rest, (2 * length t + 2 <= f)%nat -> gmembers f (t ++ 125 :: rest) = Some (l, rest).
Lemma complete : (forall t v, value_text t v -> val_c t v) /\ (forall t v, element_text t v -> el_c t v) /\ (forall t l, elements_text t l -> els_c t l) /\
  (forall t m, member_text t m -> mem_c t m) /\ (forall t l, members_text t l -> mems_c t l).
Proof.
  apply json_ind.
  1-3: intros f rest St L; (destruct f as [|f]; [cbn in L; lia|]); reflexivity.
  - intros t N f rest St L. destruct f as [|f]; [lia|]. pose proof (gnum_complete t rest N St) as G. destruct (value_opens _ _ (vt_num t N)) as (x & r & E & W & _).
    assert (Hx : x = 45 \/ digit x). { destruct N as (sg & i & fr & e & E' & [-> | ->] & Hi & _); [|left; rewrite E' in E; cbn [app] in E; congruence]. right. destruct Hi as [-> | (d & ds & -> & Hd & _)]; cbn [app] in E'; [assert (x = 48) by congruence|assert (x = d) by congruence]; unfold digit; lia. }
    unfold digit in Hx. rewrite E in *. cbn [app] in *. cbn [gread]. rewrite skip_head by exact W. replace (x =? 34) with false by lia. replace (x =? 91) with false by lia. replace (x =? 123) with false by lia.
    rewrite !beq_firstn; [rewrite G; reflexivity|..]; try discriminate; intros y u Q; cbv in Q; injection Q as <- _; lia.
  - intros t s C f rest St L. destruct f as [|f]; [lia|]. cbn [app gread]. rewrite skip_head by reflexivity. change (34 =? 34) with true. cbv iota. rewrite <- app_assoc. cbn [app].
    rewrite (gchars_complete _ _ C); [reflexivity|rewrite app_length; cbn [length]; lia].
  - intros w W f rest St L. destruct f as [|f]; [lia|]. cbn [app gread]. rewrite skip_head by reflexivity. change (91 =? 34) with false. change (91 =? 91) with true. cbv iota. rewrite <- app_assoc, skip_white by exact W. reflexivity.
  - intros t l E IH f rest St L. destruct f as [|f]; [lia|]. cbn [app gread]. rewrite skip_head by reflexivity. change (91 =? 34) with false. change (91 =? 91) with true. cbv iota. rewrite <- app_assoc. cbn [app]. destruct (elements_go_on _ _ E (93 :: rest)) as (x & r & -> & N & _).
    replace (x =? 93) with false by lia. cbn [length] in L. rewrite app_length in L. cbn [length] in L. rewrite IH by lia. reflexivity.
  - intros w W f rest St L. destruct f as [|f]; [lia|]. cbn [app gread]. rewrite skip_head by reflexivity. change (123 =? 34) with false. change (123 =? 91) with false. change (123 =? 123) with true. cbv iota. rewrite <- app_assoc, skip_white by exact W. reflexivity.
  - intros t l E IH f rest St L. destruct f as [|f]; [lia|]. cbn [app gread]. rewrite skip_head by reflexivity. change (123 =? 34) with false. change (123 =? 91) with false. change (123 =? 123) with true. cbv iota. rewrite <- app_assoc. cbn [app]. destruct (members_go_on _ _ E (125 :: rest)) as (x & r & -> & _ & N).
    replace (x =? 125) with false by lia. cbn [length] in L. rewrite app_length in L. cbn [length] in L. rewrite IH by lia. reflexivity.
  - intros w1 t w2 v W1 V IH W2 f rest En L. rewrite !app_length in L. rewrite <- !app_assoc, gread_white by exact W1. exists (w2 ++ rest). rewrite IH; [|apply white_stops; assumption|lia]. split; [reflexivity|]. rewrite skip_white by exact W2. apply ends_ws. exact En.
  - intros t v E IH f rest L. destruct f as [|f]; [lia|]. cbn [gelems]. destruct (IH f (93 :: rest)) as (r & -> & Sk); [right; left; reflexivity|lia|]. rewrite Sk. reflexivity.
  - intros t v ts l E IH Es IHs f rest L. rewrite app_length in L. cbn [length] in L. destruct f as [|f]; [lia|]. rewrite <- app_assoc. cbn [app gelems]. destruct (IH f (44 :: ts ++ 93 :: rest)) as (r & -> & Sk); [left; reflexivity|lia|]. rewrite Sk.
    change (44 =? 93) with false. change (44 =? 44) with true. cbv iota. rewrite IHs by lia. reflexivity.
  - intros w1 k name w2 t v W1 C W2 E IH f tl En L.
    rewrite app_length in L. cbn [length] in L. rewrite app_length in L. cbn [length] in L. rewrite app_length in L. cbn [length] in L.
    rewrite <- app_assoc. cbn [app gmembers]. rewrite skip_white by exact W1. rewrite skip_head by reflexivity. change (negb (34 =? 34)) with false. cbv iota. rewrite <- app_assoc. cbn [app]. rewrite (gchars_complete _ _ C); [|rewrite app_length; cbn [length]; lia].
    rewrite <- app_assoc. rewrite skip_white by exact W2. cbn [app]. rewrite skip_head by reflexivity. change (negb (58 =? 58)) with false. cbv iota. destruct (IH f tl En ltac:(lia)) as (r & -> & ->). reflexivity.
  - intros t m E IH f rest L. destruct f as [|f]; [lia|]. rewrite IH by (lia || (right; right; reflexivity)). reflexivity.
  - intros t m ts l E IH Es IHs f rest L. rewrite app_length in L. cbn [length] in L. destruct f as [|f]; [lia|]. rewrite <- app_assoc. cbn [app]. rewrite IH by (lia || (left; reflexivity)).
    change (44 =? 125) with false. change (44 =? 44) with true. cbv iota. rewrite IHs by lia. reflexivity.
Qed.
Lemma beq_word n (w : list Z) s : beq (firstn n s) w = true -> length w = n -> s = w ++ skipn n s.
Proof. intros E L. apply beq_eq in E. rewrite <- E. symmetry. apply firstn_skipn. Qed.
Lemma sound f : (forall s v r, gread f s = Some (v, r) -> exists w t, white w /\ s = w ++ t ++ r /\ value_text t v) /\
  (forall s l r, gelems f s = Some (l, r) -> exists t, s = t ++ 93 :: r /\ elements_text t l) /\
  (forall s l r, gmembers f s = Some (l, r) -> exists t, s = t ++ 125 :: r /\ members_text t l).
Proof.
  induction f as [|f (IHr & IHe & IHm)]; [repeat split; intros; discriminate|]. split; [|split].
  - intros s v r E. cbn [gread] in E. destruct (skip_split s) as (w & W & Es). destruct (skip_ws s) as [|x q]; [discriminate|]. exists w. rewrite Es.
    enough (G : exists t, x :: q = t ++ r /\ value_text t v) by (destruct G as (t & -> & V); exists t; auto).
    destruct (x =? 34) eqn:Q1.
    { destruct (gchars (length q) q) as [[t rest]|] eqn:G; [|discriminate]. apply gchars_sound in G as (k & -> & C). assert (v = VStr t) by congruence. assert (rest = r) by congruence. subst. exists (34 :: k ++ [34]). split; [cbn [app]; rewrite <- app_assoc; f_equal; lia|constructor; exact C]. }
    destruct (x =? 91) eqn:Q2.
    { destruct (skip_split q) as (w' & W' & Eq). destruct (skip_ws q) as [|y q'] eqn:Sk; [discriminate|]. destruct (y =? 93) eqn:Qy.
      - assert (v = VArr []) by congruence. assert (q' = r) by congruence. subst v q'. exists (91 :: w' ++ [93]). split; [|constructor; exact W']. rewrite Eq. cbn [app]. rewrite <- app_assoc. cbn [app]. f_equal; [lia|]. f_equal. f_equal. lia.
      - destruct (gelems f q) as [[l rest]|] eqn:G; [|discriminate]. apply IHe in G as (t & -> & Et). assert (v = VArr l) by congruence. assert (rest = r) by congruence. subst v rest. exists (91 :: t ++ [93]). split; [cbn [app]; rewrite <- app_assoc; cbn [app]; f_equal; lia|constructor; exact Et]. }
    destruct (x =? 123) eqn:Q3.
    { destruct (skip_split q) as (w' & W' & Eq). destruct (skip_ws q) as [|y q'] eqn:Sk; [discriminate|]. destruct (y =? 125) eqn:Qy.
      - assert (v = VObj []) by congruence. assert (q' = r) by congruence. subst v q'. exists (123 :: w' ++ [125]). split; [|constructor; exact W']. rewrite Eq. cbn [app]. rewrite <- app_assoc. cbn [app]. f_equal; [lia|]. f_equal. f_equal. lia.
      - destruct (gmembers f q) as [[l rest]|] eqn:G; [|discriminate]. apply IHm in G as (t & -> & Et). assert (v = VObj l) by congruence. assert (rest = r) by congruence. subst v rest. exists (123 :: t ++ [125]). split; [cbn [app]; rewrite <- app_assoc; cbn [app]; f_equal; lia|constructor; exact Et]. }
    destruct (beq (firstn 4 (x :: q)) (str "null")) eqn:Q4; [apply beq_word in Q4; [|reflexivity]; exists (str "null"); assert (v = VNull) by congruence; subst v; split; [rewrite Q4 at 1; f_equal; congruence|constructor]|].
    destruct (beq (firstn 4 (x :: q)) (str "true")) eqn:Q5; [apply beq_word in Q5; [|reflexivity]; exists (str "true"); assert (v = VBool true) by congruence; subst v; split; [rewrite Q5 at 1; f_equal; congruence|constructor]|].
    destruct (beq (firstn 5 (x :: q)) (str "false")) eqn:Q6; [apply beq_word in Q6; [|reflexivity]; exists (str "false"); assert (v = VBool false) by congruence; subst v; split; [rewrite Q6 at 1; f_equal; congruence|constructor]|].
    destruct (gnum (x :: q)) as [[l rest]|] eqn:G; [|discriminate]. apply gnum_sound in G as [-> N]. assert (v = VNum l) by congruence. assert (rest = r) by congruence. subst. exists l. split; [reflexivity|constructor; exact N].
  - intros s l r E. cbn [gelems] in E. destruct (gread f s) as [[v q]|] eqn:G; [|discriminate]. apply IHr in G as (w & t & W & -> & V). destruct (skip_split q) as (w2 & W2 & Eq). destruct (skip_ws q) as [|x q']; [discriminate|].
    pose proof (et w t w2 v W V W2) as El. destruct (x =? 93) eqn:Q.
    + exists (w ++ t ++ w2). assert (l = [v]) by congruence. assert (q' = r) by congruence. subst l q'. assert (x = 93) by lia. subst x. split; [rewrite Eq, <- !app_assoc; reflexivity|constructor; exact El].
    + destruct (x =? 44) eqn:Q'; [|discriminate]. destruct (gelems f q') as [[l' rest]|] eqn:G; [|discriminate].
      apply IHe in G as (ts & -> & Es). exists ((w ++ t ++ w2) ++ 44 :: ts). assert (l = v :: l') by congruence. assert (rest = r) by congruence. subst l rest. assert (x = 44) by lia. subst x. split; [rewrite Eq, <- !app_assoc; reflexivity|constructor; assumption].
  - intros s l r E. cbn [gmembers] in E. destruct (skip_split s) as (w & W & Es). destruct (skip_ws s) as [|x q]; [discriminate|]. rewrite Es. clear s Es. destruct (x =? 34) eqn:Q1; [|discriminate]. assert (x = 34) by lia. subst x. cbn [negb] in E.
    destruct (gchars (length q) q) as [[name q1]|] eqn:G; [|discriminate]. apply gchars_sound in G as (k & -> & C). destruct (skip_split q1) as (w1 & W1 & E1). destruct (skip_ws q1) as [|c q2]; [discriminate|]. rewrite E1. clear q1 E1.
    destruct (c =? 58) eqn:Q2; [|discriminate]. assert (c = 58) by lia. subst c. cbn [negb] in E. destruct (gread f q2) as [[v q3]|] eqn:G; [|discriminate]. apply IHr in G as (w3 & t & W3 & -> & V).
    destruct (skip_split q3) as (w2 & W2 & Eq). destruct (skip_ws q3) as [|x q']; [discriminate|].
    pose proof (mt w k name w1 _ v W C W1 (et w3 t w2 v W3 V W2)) as M. destruct (x =? 125) eqn:Q.
    + exists (w ++ 34 :: k ++ 34 :: w1 ++ 58 :: w3 ++ t ++ w2). assert (l = [(name, v)]) by congruence. assert (q' = r) by congruence. subst l q'. assert (x = 125) by lia. subst x. split; [|constructor; exact M]. rewrite Eq. repeat (rewrite <- ?app_assoc; cbn [app]). reflexivity.
    + destruct (x =? 44) eqn:Q'; [|discriminate]. destruct (gmembers f q') as [[l' rest]|] eqn:G; [|discriminate]. apply IHm in G as (ts & -> & Ets). exists ((w ++ 34 :: k ++ 34 :: w1 ++ 58 :: w3 ++ t ++ w2) ++ 44 :: ts). assert (l = (name, v) :: l') by congruence. assert (rest = r) by congruence. subst l rest. assert (x = 44) by lia. subst x.
      split; [|constructor; assumption]. rewrite Eq. repeat (rewrite <- ?app_assoc; cbn [app]). reflexivity.
Qed.
(** The reader accepts exactly the JSON texts, and gives what they say. *)
Theorem unjson_iff_json : forall s v, unjson s = Some v <-> is_json s v.
Proof.
  intros s v. unfold unjson, is_json. split.
  - destruct (gread (2 * length s + 2) s) as [[x r]|] eqn:G; [|discriminate]. apply (proj1 (sound _)) in G as (w & t & W & -> & V). destruct (skip_split r) as (w2 & W2 & Er). destruct (skip_ws r); [|discriminate]. intros E. assert (x = v) by congruence. subst x. rewrite app_nil_r in Er. subst r. constructor; assumption.
  - intros E. destruct (proj1 (proj2 complete) s v E (2 * length s + 2)%nat [] I ltac:(lia)) as (r & G & Sk). rewrite app_nil_r in G. rewrite G, Sk. reflexivity.
Qed.
