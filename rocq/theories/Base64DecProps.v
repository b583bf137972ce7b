(** C145: the method Decode of the Base64 encodings of addressEncoder, for every text and every destination. *)
From Coq Require Import String ZArith List Bool Lia ZifyBool ZifyNat.
From Verif Require Import Go GoFacts GoFacts2 Base64Props Base64DecModel.
Import ListNotations.
Open Scope Z_scope.
Ltac Zify.zify_post_hook ::= idtac.

(** ** Specification *)
(** A text without its line breaks. *)
Definition unbroken (s : list Z) : list Z := filter (fun c => negb ((c =? 10) || (c =? 13))) s.
(** The number whose digits in base 64 are [vs]. *)
Definition num64 (vs : list Z) : Z := fold_left (fun acc v => acc * 64 + v) vs 0.
(** [s] is a text for [data] with [room] bytes for its groups of four characters: up to line breaks it consists of characters of the
    alphabet and the padding of an incomplete last group, and the data are the bytes of the number the characters stand for,
    without the bits that do not fill a byte. A character that is repeated in the alphabet stands for its last place,
    and there is no padding when the equals sign is in the alphabet. *)
Definition b64_digit (alphabet : list Z) (v : Z) : Prop := 0 <= v < 64 /\ forall w, v < w < 64 -> nth (Z.to_nat w) alphabet 0 <> nth (Z.to_nat v) alphabet 0.
Definition b64_text (alphabet s : list Z) (data : bytes) (room : Z) : Prop :=
  exists vs pad, unbroken s = map (fun v => nth (Z.to_nat v) alphabet 0) vs ++ pad /\ Forall (b64_digit alphabet) vs /\
    In (zlen vs mod 4, pad) [(0, []); (2, str "=="); (3, str "=")] /\ (pad <> [] -> ~ In 61 alphabet) /\
    is_bytes data /\ zlen data = zlen vs * 3 / 4 /\ be_num data = num64 vs / 4 ^ zlen pad /\ room = (zlen vs + zlen pad) / 4 * 3.
Definition b64_alphabet (alphabet : list Z) : Prop := is_bytes alphabet /\ length alphabet = 64%nat /\ ~ In 10 alphabet /\ ~ In 13 alphabet.

(** ** Groups *)
Definition q3 (a b c d : Z) : bytes := let v := a * 2 ^ 18 + b * 2 ^ 12 + c * 2 ^ 6 + d in [v / 2 ^ 16 mod 256; v / 2 ^ 8 mod 256; v mod 256].
Fixpoint unpack (vs : list Z) : bytes :=
  match vs with
  | a :: b :: c :: d :: r => q3 a b c d ++ unpack r
  | [a; b; c] => firstn 2 (q3 a b c 0)
  | [a; b] => firstn 1 (q3 a b 0 0)
  | _ => []
  end.
Lemma quad_ind (P : list Z -> Prop) : P [] -> (forall a, P [a]) -> (forall a b, P [a; b]) -> (forall a b c, P [a; b; c]) -> (forall a b c d r, P r -> P (a :: b :: c :: d :: r)) -> forall l, P l.
Proof. intros H0 H1 H2 H3 H4. fix IH 1. intros [|a [|b [|c [|d r]]]]; [exact H0|apply H1|apply H2|apply H3|apply H4, IH]. Qed.
Lemma num64_acc vs : forall acc, fold_left (fun a v => a * 64 + v) vs acc = acc * 64 ^ zlen vs + num64 vs.
Proof.
  unfold num64. induction vs as [|v vs IH]; intros acc; cbn [fold_left]; [change (zlen (@nil Z)) with 0; lia|]. rewrite IH, (IH (0 * 64 + v)), zlen_cons. pose proof (zlen_nonneg vs). rewrite Z.pow_add_r by lia. lia.
Qed.
Lemma num64_app a b : num64 (a ++ b) = num64 a * 64 ^ zlen b + num64 b.
Proof. unfold num64 at 1. rewrite fold_left_app, num64_acc. reflexivity. Qed.
Lemma num64_bound vs : Forall (fun v => 0 <= v < 64) vs -> 0 <= num64 vs < 64 ^ zlen vs.
Proof.
  intros F. induction vs as [|v vs IH] using rev_ind; [unfold num64, zlen; cbn; lia|]. apply Forall_app in F as [F V]. inversion V; subst. specialize (IH F). rewrite num64_app, zlen_app. change (zlen [v]) with 1. pose proof (zlen_nonneg vs). rewrite Z.pow_add_r by lia. change (num64 [v]) with (0 * 64 + v). nia.
Qed.
Lemma q3_bytes a b c d : is_bytes (q3 a b c d).
Proof. unfold q3. repeat (apply Forall_cons; [unfold is_byte; apply Z.mod_pos_bound; lia|]). apply Forall_nil. Qed.
Lemma q3_num a b c d : 0 <= a < 64 -> 0 <= b < 64 -> 0 <= c < 64 -> 0 <= d < 64 -> be_num (q3 a b c d) = a * 2 ^ 18 + b * 2 ^ 12 + c * 2 ^ 6 + d.
Proof.
  intros. unfold q3. set (v := a * 2 ^ 18 + b * 2 ^ 12 + c * 2 ^ 6 + d). assert (0 <= v < 2 ^ 24) by (unfold v; lia). change (be_num [?x; ?y; ?z]) with (((0 * 256 + x) * 256 + y) * 256 + z). clearbody v.
  pose proof (Z.div_mod v (2 ^ 8) ltac:(lia)). pose proof (Z.div_mod (v / 2 ^ 8) (2 ^ 8) ltac:(lia)). rewrite Z.div_div in * by lia. change (2 ^ 8 * 2 ^ 8) with (2 ^ 16) in *.
  assert (v / 2 ^ 16 < 256) by (apply Z.div_lt_upper_bound; lia). assert (0 <= v / 2 ^ 16) by (apply Z.div_pos; lia). rewrite (Z.mod_small (v / 2 ^ 16)) by lia. change (2 ^ 8) with 256 in *. lia.
Qed.
Lemma Forall_firstn {A} (P : A -> Prop) n l : Forall P l -> Forall P (firstn n l).
Proof. intros F. revert n. induction F; intros [|n]; cbn [firstn]; constructor; auto. Qed.
Lemma unpack_bytes vs : is_bytes (unpack vs).
Proof.
  induction vs using quad_ind; try apply Forall_nil; cbn [unpack].
  - apply Forall_firstn. apply q3_bytes.
  - apply Forall_firstn. apply q3_bytes.
  - apply Forall_app. split; [apply q3_bytes|assumption].
Qed.
Lemma unpack_len vs : zlen vs mod 4 <> 1 -> zlen (unpack vs) = zlen vs * 3 / 4.
Proof.
  induction vs as [| | | |a b c d r IH] using quad_ind; intros N; try reflexivity. cbn [unpack]. rewrite zlen_app. change (zlen (q3 a b c d)) with 3. rewrite !zlen_cons in N |- *.
  replace ((1 + (1 + (1 + (1 + zlen r)))) mod 4) with (zlen r mod 4) in N by (replace (1 + (1 + (1 + (1 + zlen r)))) with (zlen r + 1 * 4) by lia; rewrite Z.mod_add by lia; reflexivity). rewrite IH by exact N.
  replace ((1 + (1 + (1 + (1 + zlen r)))) * 3) with (zlen r * 3 + 3 * 4) by lia. rewrite Z.div_add by lia. lia.
Qed.
(** The number of padding characters. *)
Definition pads (n : Z) : Z := (4 - n mod 4) mod 4.
Lemma num64_4 a b c d : num64 [a; b; c; d] = a * 2 ^ 18 + b * 2 ^ 12 + c * 2 ^ 6 + d.
Proof. unfold num64. cbn [fold_left]. lia. Qed.
Lemma unpack_num vs : Forall (fun v => 0 <= v < 64) vs -> zlen vs mod 4 <> 1 -> be_num (unpack vs) = num64 vs / 4 ^ pads (zlen vs).
Proof.
  induction vs as [| | | |a b c d r IH] using quad_ind; intros F N.
  - reflexivity.
  - contradiction N; reflexivity.
  - inversion F as [|? ? Fa F1]; subst. inversion F1 as [|? ? Fb _]; subst. cbn [unpack]. change (be_num (firstn 1 (q3 a b 0 0))) with (0 * 256 + (a * 2 ^ 18 + b * 2 ^ 12 + 0 * 2 ^ 6 + 0) / 2 ^ 16 mod 256).
    change (num64 [a; b]) with ((0 * 64 + a) * 64 + b). change (4 ^ pads (zlen [a; b])) with (2 ^ 4). replace (a * 2 ^ 18 + b * 2 ^ 12 + 0 * 2 ^ 6 + 0) with (((0 * 64 + a) * 64 + b) * 2 ^ 12) by lia. change (2 ^ 16) with (2 ^ 4 * 2 ^ 12). rewrite Z.div_mul_cancel_r by lia.
    rewrite Z.mod_small; [lia|]. split; [apply Z.div_pos; lia|apply Z.div_lt_upper_bound; lia].
  - inversion F as [|? ? Fa F1]; subst. inversion F1 as [|? ? Fb F2]; subst. inversion F2 as [|? ? Fc _]; subst. cbn [unpack]. pose proof (q3_num a b c 0 Fa Fb Fc ltac:(lia)) as Q. unfold q3 in Q |- *. cbv zeta in Q |- *. cbn [firstn]. set (v := a * 2 ^ 18 + b * 2 ^ 12 + c * 2 ^ 6 + 0) in *.
    change (be_num [?x; ?y; ?z]) with (((0 * 256 + x) * 256 + y) * 256 + z) in Q. change (be_num [?x; ?y]) with ((0 * 256 + x) * 256 + y). change (4 ^ pads (zlen [a; b; c])) with 4. change (num64 [a; b; c]) with (((0 * 64 + a) * 64 + b) * 64 + c).
    assert (V : ((0 * 64 + a) * 64 + b) * 64 + c = v / 64) by (unfold v; replace (a * 2 ^ 18 + b * 2 ^ 12 + c * 2 ^ 6 + 0) with ((((0 * 64 + a) * 64 + b) * 64 + c) * 64) by lia; rewrite Z.div_mul by lia; reflexivity). rewrite V, Z.div_div by lia. change (64 * 4) with 256.
    pose proof (Z.mod_pos_bound v 256 ltac:(lia)). apply Z.div_unique with (v mod 256); [lia|]. lia.
  - do 4 (apply Forall_cons_iff in F as [? F]). cbn [unpack]. rewrite be_num_app, q3_num by assumption. rewrite !zlen_cons in N |- *. assert (E : 1 + (1 + (1 + (1 + zlen r))) = zlen r + 1 * 4) by lia. rewrite E in N |- *. rewrite Z.mod_add in N by lia. unfold pads. rewrite Z.mod_add by lia. fold (pads (zlen r)). rewrite IH, unpack_len by assumption.
    change (a :: b :: c :: d :: r) with ([a; b; c; d] ++ r). rewrite num64_app, num64_4. set (g := a * 2 ^ 18 + b * 2 ^ 12 + c * 2 ^ 6 + d).
    assert (P : 64 ^ zlen r = 256 ^ (zlen r * 3 / 4) * 4 ^ pads (zlen r)).
    { pose proof (zlen_nonneg r). change 64 with (2 ^ 6). change 256 with (2 ^ 8). change 4 with (2 ^ 2) at 2. assert (R : 0 <= pads (zlen r)) by (unfold pads; apply Z.mod_pos_bound; lia). assert (D : 0 <= zlen r * 3 / 4) by (apply Z.div_pos; lia). rewrite <- !Z.pow_mul_r by lia. rewrite <- Z.pow_add_r by lia. f_equal.
      unfold pads. pose proof (Z.div_mod (zlen r) 4 ltac:(lia)) as DM. pose proof (Z.mod_pos_bound (zlen r) 4 ltac:(lia)). set (m := zlen r mod 4) in *. set (k := zlen r / 4) in *. rewrite DM. replace ((4 * k + m) * 3) with (m * 3 + 3 * k * 4) by lia. rewrite Z.div_add by lia.
      assert (m = 0 \/ m = 2 \/ m = 3) as [Em|[Em|Em]] by lia; rewrite Em; [change ((4 - 0) mod 4) with 0; change (0 * 3 / 4) with 0|change ((4 - 2) mod 4) with 2; change (2 * 3 / 4) with 1|change ((4 - 3) mod 4) with 1; change (3 * 3 / 4) with 2]; lia. }
    rewrite P, Z.mul_assoc. assert (Q4 : 0 < 4 ^ pads (zlen r)) by (apply Z.pow_pos_nonneg; [lia|unfold pads; apply Z.mod_pos_bound; lia]). rewrite Z.add_comm, (Z.add_comm _ (num64 r)), Z.div_add by lia. lia.
Qed.

(** ** Reading a group *)
Section E.
Variable e : encoding.
Hypothesis e_nl : dmap e 10 = 255 /\ dmap e 13 = 255.
Hypothesis e_pad : enc_pad e = 61.
Hypothesis e_strict : enc_strict e = false.
Hypothesis e_val : forall c, 0 <= dmap e c < 64 \/ dmap e c = 255.
Definition sym (c : Z) : Prop := dmap e c <> 255.
Definition stops (x : list Z) : Prop := match x with [] => True | c :: _ => ~ sym c end.
Lemma unbroken_cons c r : unbroken (c :: r) = if nl c then unbroken r else c :: unbroken r.
Proof. unfold unbroken, nl. cbn [filter]. destruct ((c =? 10) || (c =? 13)); reflexivity. Qed.
Lemma nl_not_sym c : nl c = true -> dmap e c = 255.
Proof. unfold nl. intros N. destruct e_nl as [N1 N2]. assert (c = 10 \/ c = 13) as [-> | ->] by lia; assumption. Qed.
Lemma skip_unbroken r : unbroken (skip_nl r) = unbroken r /\ (skip_nl r = [] <-> unbroken r = []) /\ (length (skip_nl r) <= length r)%nat /\ match skip_nl r with [] => True | c :: r' => nl c = false /\ unbroken r = c :: unbroken r' end.
Proof.
  induction r as [|c r IH]; cbn [skip_nl]; [repeat split; auto|]. rewrite unbroken_cons. destruct (nl c) eqn:N.
  - destruct IH as (A & B & C & D). split; [exact A|]. split; [exact B|]. split; [cbn [length]; lia|exact D].
  - rewrite unbroken_cons, N. split; [reflexivity|]. split; [split; discriminate|]. split; [lia|]. split; reflexivity.
Qed.
Lemma prefix_unique (A B x y : list Z) : Forall sym A -> Forall sym B -> stops x -> stops y -> A ++ x = B ++ y -> A = B /\ x = y.
Proof.
  intros FA FB Sx Sy. revert B FB. induction FA as [|a A Ha FA IH]; intros [|b B] FB E; cbn [app] in E.
  - auto.
  - subst x. inversion FB; subst. contradiction.
  - subst y. contradiction.
  - injection E as -> E. inversion FB; subst. destruct (IH B) as [-> ->]; auto.
Qed.
Lemma max_prefix (t : list Z) : exists S x, t = S ++ x /\ Forall sym S /\ stops x.
Proof.
  induction t as [|c t (S & x & -> & F & St)]; [exists [], []; repeat split; constructor|]. destruct (Z.eq_dec (dmap e c) 255) as [E|N].
  - exists [], (c :: S ++ x). split; [reflexivity|]. split; [constructor|]. intros Q. exact (Q E).
  - exists (c :: S), x. split; [reflexivity|]. split; [constructor; assumption|exact St].
Qed.
(** What is left to do with fewer than four characters before [x]: nothing, an error, or a last group. *)
Definition tail_of (j : Z) (x : list Z) : option (list Z) :=
  match x with
  | 61 :: y => if j =? 2 then match y with 61 :: y' => Some y' | _ => None end else if j =? 3 then Some y else None
  | _ => None
  end.
Lemma finish_spec dbuf r : exists r', finish dbuf r = Got dbuf 3 (zlen dbuf) r' (match unbroken r with [] => false | _ => true end) /\ unbroken r' = unbroken r /\ (r' = [] <-> unbroken r = []).
Proof.
  unfold finish. destruct (skip_unbroken r) as (A & B & _). exists (skip_nl r). split; [|auto]. f_equal. destruct (skip_nl r), (unbroken r); try reflexivity; exfalso.
  - destruct B as [B _]. discriminate (B eq_refl).
  - destruct B as [_ B]. discriminate (B eq_refl).
Qed.
Lemma qread_spec : forall src dbuf S x, unbroken src = S ++ x -> Forall sym S -> stops x -> (length dbuf <= 4)%nat ->
  if Nat.leb 4 (length dbuf + length S) then exists r', qread e src dbuf = Got (firstn 4 (dbuf ++ map (dmap e) S)) 3 4 r' false /\ unbroken r' = skipn (4 - length dbuf) S ++ x /\ (length r' <= length src)%nat /\ ((length dbuf < 4)%nat -> (length r' < length src)%nat)
  else let D := dbuf ++ map (dmap e) S in
    match tail_of (zlen D) x with
    | Some y => exists r', qread e src dbuf = Got D 3 (zlen D) r' (match y with [] => false | _ => true end) /\ unbroken r' = y /\ (r' = [] <-> y = [])
    | None => exists r', qread e src dbuf = Stop r' (match D ++ x with [] => false | _ => true end) /\ (D ++ x = [] -> r' = [])
    end.
Proof.
  induction src as [|c src IH]; intros dbuf S x E F St L.
  - cbn in E. destruct S as [|? ?]; [|discriminate]. cbn [app] in E. subst x. cbn [length map]. rewrite Nat.add_0_r, app_nil_r. cbn [qread]. destruct (Nat.leb_spec 4 (length dbuf)) as [G|G].
    + replace (zlen dbuf =? 4) with true by (unfold zlen; lia). exists []. rewrite firstn_all2 by lia. split; [reflexivity|]. split; [destruct (4 - length dbuf)%nat; reflexivity|]. split; [reflexivity|intros; exfalso; lia].
    + replace (zlen dbuf =? 4) with false by (unfold zlen; lia). cbv zeta. cbn [tail_of]. rewrite app_nil_r. exists []. rewrite e_pad. change (negb (61 =? -1)) with true. rewrite orb_true_r. destruct dbuf; [split; reflexivity|]. replace (zlen (z :: dbuf) =? 0) with false by (unfold zlen; cbn [length]; lia). split; reflexivity.
  - cbn [qread]. destruct (zlen dbuf =? 4) eqn:Z4.
    + assert (L4 : length dbuf = 4%nat) by (unfold zlen in Z4; lia). replace (4 <=? length dbuf + length S)%nat with true by (symmetry; apply Nat.leb_le; lia). exists (c :: src). split; [rewrite firstn_app, L4; cbn [Nat.sub]; rewrite firstn_O, app_nil_r, firstn_all2 by lia; reflexivity|]. rewrite L4. cbn [Nat.sub skipn]. split; [exact E|]. split; lia.
    + rewrite unbroken_cons in E. cbv zeta. assert (L3 : (length dbuf < 4)%nat) by (unfold zlen in Z4; lia). destruct (Z.eqb_spec (dmap e c) 255) as [M|M]; cbn [negb].
      * destruct (nl c) eqn:N.
        { specialize (IH dbuf S x E F St L). destruct (4 <=? length dbuf + length S)%nat; [destruct IH as (r' & A & B & C & D); exists r'; split; [exact A|]; split; [exact B|]; cbn [length]; split; lia|exact IH]. }
        assert (S = [] /\ x = c :: unbroken src) as [-> ->]. { destruct S as [|s S]; [auto|]. injection E as -> _. inversion F; subst. contradiction. }
        cbn [length map]. rewrite Nat.add_0_r, app_nil_r. replace (4 <=? length dbuf)%nat with false by (symmetry; apply Nat.leb_gt; lia). cbv zeta. rewrite e_pad. destruct (Z.eqb_spec c 61) as [->|NP]; cbn [negb].
        2: { assert (T : tail_of (zlen dbuf) (c :: unbroken src) = None) by (unfold tail_of; destruct c as [|p|p]; try reflexivity; repeat (destruct p as [p|p|]; try reflexivity); contradiction). rewrite T. exists src. split; [destruct dbuf; reflexivity|]. intros Q. apply app_eq_nil in Q as [_ Q]. discriminate. }
        cbn [tail_of]. destruct (zlen dbuf <=? 1) eqn:Z1.
        { replace (zlen dbuf =? 2) with false by lia. replace (zlen dbuf =? 3) with false by lia. exists src. split; [destruct dbuf; reflexivity|]. intros Q. apply app_eq_nil in Q as [_ Q]. discriminate. }
        destruct (zlen dbuf =? 2) eqn:Z2.
        { destruct (skip_unbroken src) as (A & B & C & D). destruct (skip_nl src) as [|c' r'].
          - rewrite (proj1 B eq_refl). exists []. split; [destruct dbuf; [discriminate Z2|reflexivity]|]. reflexivity.
          - destruct D as [D1 D2]. rewrite D2. destruct (Z.eqb_spec c' 61) as [->|NP]; cbn [negb].
            + destruct (finish_spec dbuf r') as (r'' & Q1 & Q2 & Q3). exists r''. split; [exact Q1|]. split; assumption.
            + assert (T : match c' :: unbroken r' with 61 :: y' => Some y' | _ => None end = None) by (destruct c' as [|p|p]; try reflexivity; repeat (destruct p as [p|p|]; try reflexivity); contradiction). rewrite T. eexists. split; [destruct dbuf; reflexivity|]. intros Q. apply app_eq_nil in Q as [_ Q]. discriminate. }
        { replace (zlen dbuf =? 3) with true by (unfold zlen in *; lia). destruct (finish_spec dbuf src) as (r'' & Q1 & Q2 & Q3). exists r''. split; [exact Q1|]. split; assumption. }
      * assert (N : nl c = false) by (destruct (nl c) eqn:Q; [apply nl_not_sym in Q; contradiction|reflexivity]). rewrite N in E. destruct S as [|s S].
        { cbn [app] in E. subst x. destruct (St M). }
        injection E as -> E. inversion F as [|? ? Fs F']; subst. specialize (IH (dbuf ++ [dmap e s]) S x E F' St). rewrite app_length in IH. cbn [length] in IH. specialize (IH ltac:(lia)). cbn [length map]. replace (length dbuf + 1 + length S)%nat with (length dbuf + Datatypes.S (length S))%nat in IH by lia. rewrite <- app_assoc in IH. cbn [app] in IH.
        destruct (4 <=? length dbuf + Datatypes.S (length S))%nat; [|exact IH]. destruct IH as (r' & A & B & C & D). exists r'. split; [exact A|]. split; [|split; lia]. rewrite B. replace (4 - length dbuf)%nat with (Datatypes.S (4 - (length dbuf + 1)))%nat by lia. reflexivity.
Qed.

(** ** Writing *)
Lemma skip_two {A} a : forall b (l : list A), skipn b (skipn a l) = skipn (a + b) l.
Proof. induction a as [|a IH]; intros b l; [reflexivity|]. destruct l as [|y l]; [rewrite !skipn_nil; reflexivity|]. cbn [skipn Nat.add]. apply IH. Qed.
(** [dst'] is [dst] with [data] from position [n] on; at most two bytes behind them may have changed. *)
Definition wrote (dst : bytes) (n : Z) (data dst' : bytes) : Prop :=
  exists t, dst' = firstn (Z.to_nat n) dst ++ data ++ t /\ (Z.to_nat n + length data + length t = length dst)%nat /\ skipn 2 t = skipn (Z.to_nat n + length data + 2) dst.
Lemma wrote_len dst n data dst' : wrote dst n data dst' -> zlen dst' = zlen dst.
Proof. intros (t & -> & L & _). unfold zlen. rewrite !app_length, firstn_length. lia. Qed.
Lemma wrote_nil dst n : 0 <= n <= zlen dst -> wrote dst n [] dst.
Proof.
  intros B. exists (skipn (Z.to_nat n) dst). cbn [app length]. rewrite firstn_skipn, skipn_length, Nat.add_0_r. split; [reflexivity|]. split; [unfold zlen in B; lia|]. rewrite skip_two. f_equal; lia.
Qed.
Lemma wrote_app dst n d1 dst1 d2 dst2 : 0 <= n -> wrote dst n d1 dst1 -> wrote dst1 (n + zlen d1) d2 dst2 -> wrote dst n (d1 ++ d2) dst2.
Proof.
  intros N (t1 & E1 & L1 & S1) (t2 & E2 & L2 & S2). assert (Q : Z.to_nat (n + zlen d1) = (Z.to_nat n + length d1)%nat) by (unfold zlen; lia). rewrite Q in *. assert (F : length (firstn (Z.to_nat n) dst) = Z.to_nat n) by (rewrite firstn_length; lia).
  exists t2. split; [|split].
  - rewrite E2. assert (FE : firstn (Z.to_nat n + length d1) dst1 = firstn (Z.to_nat n) dst ++ d1).
    { rewrite E1, app_assoc, firstn_app, app_length, F, Nat.sub_diag, firstn_O, app_nil_r. apply firstn_all2. rewrite app_length. lia. }
    rewrite FE, <- !app_assoc. reflexivity.
  - rewrite app_length. rewrite E1, !app_length, F in L2. lia.
  - rewrite S2, app_length, E1, app_assoc, skipn_app. rewrite (skipn_all2 (firstn _ _ ++ d1)) by (rewrite app_length; lia). cbn [app]. rewrite app_length, F. replace (Z.to_nat n + length d1 + length d2 + 2 - (Z.to_nat n + length d1))%nat with (2 + length d2)%nat by lia.
    rewrite <- skip_two, S1, skip_two. f_equal; lia.
Qed.
Lemma put_wrote dst n b z : 0 <= n -> n + zlen b + zlen z <= zlen dst -> zlen z <= 2 -> wrote dst n b (put_at dst n (b ++ z)).
Proof.
  intros N L Z2. unfold put_at, zlen in *. exists (z ++ skipn (Z.to_nat n + length (b ++ z)) dst). split; [rewrite <- app_assoc; reflexivity|]. rewrite app_length, skipn_length, app_length. split; [lia|]. rewrite skipn_app, (skipn_all2 z) by lia. cbn [app]. rewrite skip_two. f_equal; lia.
Qed.
Lemma put_app dst n a b : 0 <= n -> n + zlen a + zlen b <= zlen dst -> put_at dst n (a ++ b) = put_at (put_at dst n a) (n + zlen a) b.
Proof.
  intros N L. unfold put_at, zlen in *. assert (Q : Z.to_nat (n + Z.of_nat (length a)) = (Z.to_nat n + length a)%nat) by lia. rewrite Q. assert (F : length (firstn (Z.to_nat n) dst) = Z.to_nat n) by (rewrite firstn_length; lia).
  assert (E1 : firstn (Z.to_nat n + length a) (firstn (Z.to_nat n) dst ++ a ++ skipn (Z.to_nat n + length a) dst) = firstn (Z.to_nat n) dst ++ a).
  { rewrite app_assoc, firstn_app, app_length, F, Nat.sub_diag, firstn_O, app_nil_r, firstn_all2 by (rewrite app_length; lia). reflexivity. }
  rewrite E1. rewrite <- !app_assoc. f_equal. f_equal. f_equal. rewrite app_assoc, skipn_app, (skipn_all2 (firstn _ _ ++ a)) by (rewrite app_length; lia). cbn [app]. rewrite !app_length, F, skip_two. f_equal; lia.
Qed.
Lemma put_back dst n a b : 0 <= n -> n + 1 + zlen b <= zlen dst -> put_at (put_at dst (n + 1) b) n [a] = put_at dst n (a :: b).
Proof.
  intros N L. unfold put_at, zlen in *. cbn [length]. assert (Q : Z.to_nat (n + 1) = (Z.to_nat n + 1)%nat) by lia. rewrite Q. assert (F : length (firstn (Z.to_nat n + 1) dst) = (Z.to_nat n + 1)%nat) by (rewrite firstn_length; lia).
  rewrite firstn_app, F. replace (Z.to_nat n - (Z.to_nat n + 1))%nat with O by lia. rewrite firstn_O, app_nil_r, firstn_firstn. replace (Nat.min (Z.to_nat n) (Z.to_nat n + 1)) with (Z.to_nat n) by lia. f_equal.
  rewrite skipn_app, F, (skipn_all2 (firstn _ _)) by lia. rewrite Nat.sub_diag. cbn [skipn app]. f_equal. f_equal. f_equal; lia.
Qed.

(** ** Rounds *)
Definition vals (S : list Z) : list Z := map (dmap e) S.
Definition some {A} (l : list A) : bool := match l with [] => false | _ => true end.
Inductive run : bytes -> Z -> list Z -> list Z -> res (bytes * Z * bool) -> Prop :=
| run_full dst n a b c d S x dst1 r : 3 <= zlen dst - n -> wrote dst n (q3 (dmap e a) (dmap e b) (dmap e c) (dmap e d)) dst1 -> run dst1 (n + 3) S x r -> run dst n (a :: b :: c :: d :: S) x r
| run_full_panic dst n a b c d S x : zlen dst - n < 3 -> run dst n (a :: b :: c :: d :: S) x Panic
| run_tail dst n S x y dst1 : (length S < 4)%nat -> tail_of (zlen S) x = Some y -> 3 <= zlen dst - n -> wrote dst n (unpack (vals S)) dst1 -> run dst n S x (Ok (dst1, n + zlen (unpack (vals S)), some y))
| run_tail_panic dst n S x y : (length S < 4)%nat -> tail_of (zlen S) x = Some y -> zlen dst - n < 3 -> run dst n S x Panic
| run_stop dst n S x : (length S < 4)%nat -> tail_of (zlen S) x = None -> run dst n S x (Ok (dst, n, some (S ++ x))).
Lemma tail_len (S : list Z) x y : tail_of (zlen S) x = Some y -> zlen S = 2 \/ zlen S = 3.
Proof. unfold tail_of. destruct x as [|c x]; [discriminate|]. destruct (zlen S =? 2) eqn:Z2; [lia|]. destruct (zlen S =? 3) eqn:Z3; [lia|]. destruct c as [|p|p]; try discriminate; repeat (destruct p as [p|p|]; try discriminate). Qed.
(** One call of decodeQuantum. *)
Lemma quantum_spec dst n src S x : unbroken src = S ++ x -> Forall sym S -> stops x -> 0 <= n <= zlen dst ->
  match S with
  | a :: b :: c :: d :: S' => if zlen dst - n <? 3 then decode_quantum e dst n src = Panic else exists r', decode_quantum e dst n src = Ok (put_at dst n (q3 (dmap e a) (dmap e b) (dmap e c) (dmap e d)), r', 3, false) /\ unbroken r' = S' ++ x /\ (length r' < length src)%nat
  | _ => match tail_of (zlen S) x with
         | Some y => if zlen dst - n <? 3 then decode_quantum e dst n src = Panic else exists r', decode_quantum e dst n src = Ok (put_at dst n (unpack (vals S)), r', zlen (unpack (vals S)), some y) /\ (y = [] -> r' = [])
         | None => exists r', decode_quantum e dst n src = Ok (dst, r', 0, some (S ++ x)) /\ (S ++ x = [] -> r' = [])
         end
  end.
Proof.
  intros E F St B. pose proof (qread_spec src [] S x E F St ltac:(cbn; lia)) as Q. unfold decode_quantum. cbn [length app Nat.add Nat.sub] in Q.
  assert (SE : forall A, some (vals A ++ x) = some (A ++ x)) by (intros [|? ?]; reflexivity).
  destruct S as [|a [|b [|c [|d S']]]].
  - cbn [length Nat.leb map] in Q. cbv zeta in Q. change (zlen (@nil Z)) with 0 in *. assert (T : tail_of 0 x = None) by (destruct (tail_of 0 x) eqn:T; [pose proof (tail_len [] x l T) as [W|W]; discriminate W|reflexivity]). rewrite T in *. destruct Q as (r' & -> & Q). exists r'. split; [reflexivity|]. exact Q.
  - cbn [length Nat.leb map] in Q. cbv zeta in Q. change (zlen [dmap e a]) with 1 in *. change (zlen [a]) with 1. assert (T : tail_of 1 x = None) by (destruct (tail_of 1 x) eqn:T; [pose proof (tail_len [0] x l T) as [W|W]; discriminate W|reflexivity]). rewrite T in *. destruct Q as (r' & -> & Q). exists r'. split; [reflexivity|]. discriminate.
  - cbn [length Nat.leb map] in Q. cbv zeta in Q. change (zlen [dmap e a; dmap e b]) with 2 in *. change (zlen [a; b]) with 2. destruct (tail_of 2 x) as [y|]; [|destruct Q as (r' & -> & Q); exists r'; split; [reflexivity|discriminate]].
    destruct Q as (r' & -> & Q1 & Q2). cbn [nth]. change (2 =? 4) with false. change (2 =? 3) with false. rewrite e_strict. cbn [andb]. cbv iota zeta. destruct (zlen dst - n <? 3) eqn:R; [destruct (zlen dst - n <? 2 - 1); reflexivity|]. replace (zlen dst - n <? 2 - 1) with false by lia. exists r'. split; [|intros ->; apply Q2; reflexivity].
    change (zlen (unpack (vals [a; b]))) with 1. cbn [unpack vals map firstn q3]. reflexivity.
  - cbn [length Nat.leb map] in Q. cbv zeta in Q. change (zlen [dmap e a; dmap e b; dmap e c]) with 3 in *. change (zlen [a; b; c]) with 3. destruct (tail_of 3 x) as [y|]; [|destruct Q as (r' & -> & Q); exists r'; split; [reflexivity|discriminate]].
    destruct Q as (r' & -> & Q1 & Q2). cbn [nth]. change (3 =? 4) with false. change (3 =? 3) with true. rewrite e_strict. cbn [andb]. cbv iota zeta. destruct (zlen dst - n <? 3) eqn:R; [destruct (zlen dst - n <? 3 - 1); reflexivity|]. replace (zlen dst - n <? 3 - 1) with false by lia. exists r'. split; [|intros ->; apply Q2; reflexivity].
    change (zlen (unpack (vals [a; b; c]))) with 2. rewrite put_back by (unfold zlen in *; cbn [length]; lia). cbn [unpack vals map firstn q3]. reflexivity.
  - cbn [length Nat.leb] in Q. destruct Q as (r' & -> & Q1 & _ & Q3). cbn [map firstn nth]. change (4 =? 4) with true. cbv iota zeta. destruct (zlen dst - n <? 3) eqn:R; [replace (zlen dst - n <? 4 - 1) with true by lia; reflexivity|]. replace (zlen dst - n <? 4 - 1) with false by lia. exists r'. split; [|split; [exact Q1|apply Q3; cbn; lia]].
    replace (n + 2) with (n + 1 + 1) by lia. rewrite (put_back dst (n + 1)) by (unfold zlen in *; cbn [length]; lia). rewrite put_back by (unfold zlen in *; cbn [length]; lia). reflexivity.
Qed.
Lemma put_len dst n b : 0 <= n -> n + zlen b <= zlen dst -> zlen (put_at dst n b) = zlen dst.
Proof. intros. unfold put_at, zlen in *. rewrite !app_length, firstn_length, skipn_length. lia. Qed.
Lemma wrote_put dst n b : 0 <= n -> n + zlen b <= zlen dst -> wrote dst n b (put_at dst n b).
Proof. intros N L. rewrite <- (app_nil_r b) at 2. apply put_wrote; [exact N|change (zlen (@nil Z)) with 0; lia|change (zlen (@nil Z)) with 0; lia]. Qed.
(** A round of any of the three loops that calls decodeQuantum. *)
Lemma quantum_round (next : bytes -> Z -> bytes -> res (bytes * Z * bool)) dst n src S x : src <> [] -> unbroken src = S ++ x -> Forall sym S -> stops x -> 0 <= n <= zlen dst ->
  (forall dst' n' src' S', (length src' < length src)%nat -> unbroken src' = S' ++ x -> Forall sym S' -> 0 <= n' <= zlen dst' -> run dst' n' S' x (next dst' n' src')) ->
  (forall dst' n', next dst' n' [] = Ok (dst', n', false)) ->
  run dst n S x ('(dst, r, m, bad) <- decode_quantum e dst n src ;; if bad : bool then Ok (dst, n + m, true) else next dst (n + m) r).
Proof.
  intros NE E F St B IH IH0. pose proof (quantum_spec dst n src S x E F St B) as Q.
  assert (SHORT : (length S < 4)%nat -> match tail_of (zlen S) x with
         | Some y => if zlen dst - n <? 3 then decode_quantum e dst n src = Panic else exists r', decode_quantum e dst n src = Ok (put_at dst n (unpack (vals S)), r', zlen (unpack (vals S)), some y) /\ (y = [] -> r' = [])
         | None => exists r', decode_quantum e dst n src = Ok (dst, r', 0, some (S ++ x)) /\ (S ++ x = [] -> r' = [])
         end) by (intros L; destruct S as [|a [|b [|c [|d S']]]]; try exact Q; cbn [length] in L; lia).
  destruct (Nat.lt_ge_cases (length S) 4) as [L|L].
  - specialize (SHORT L). destruct (tail_of (zlen S) x) as [y|] eqn:T.
    + pose proof (tail_len _ _ _ T) as TL. assert (UL : zlen (unpack (vals S)) <= 2) by (destruct S as [|a [|b [|c [|d S']]]]; cbn [length] in L; try lia; cbn; lia). destruct (zlen dst - n <? 3) eqn:R; [rewrite SHORT; cbn [bind]; apply run_tail_panic with y; (assumption || lia)|]. destruct SHORT as (r' & -> & Y). cbn [bind].
      assert (W : wrote dst n (unpack (vals S)) (put_at dst n (unpack (vals S)))) by (apply wrote_put; lia). destruct y as [|y0 y]; cbn [some].
      * rewrite (Y eq_refl), IH0. change false with (some (@nil Z)). apply run_tail; (assumption || lia).
      * change true with (some (y0 :: y)). apply run_tail; (assumption || lia).
    + destruct SHORT as (r' & -> & Y). cbn [bind]. rewrite Z.add_0_r. destruct (S ++ x) as [|z0 z] eqn:SX; cbn [some].
      * rewrite (Y eq_refl), IH0. change false with (some (@nil Z)). rewrite <- SX. apply run_stop; assumption.
      * change true with (some (z0 :: z)). rewrite <- SX. apply run_stop; assumption.
  - destruct S as [|a [|b [|c [|d S']]]]; cbn [length] in L; try lia. destruct (zlen dst - n <? 3) eqn:R; [rewrite Q; cbn [bind]; apply run_full_panic; lia|]. destruct Q as (r' & -> & Q1 & Q2). cbn [bind].
    do 4 (apply Forall_cons_iff in F as [_ F]). assert (L3 : zlen (q3 (dmap e a) (dmap e b) (dmap e c) (dmap e d)) = 3) by reflexivity.
    apply run_full with (put_at dst n (q3 (dmap e a) (dmap e b) (dmap e c) (dmap e d))); [lia|apply wrote_put; lia|]. apply IH; [assumption..|]. rewrite put_len by lia. lia.
Qed.
Lemma slow_run : forall fuel dst n src S x, (length src < fuel)%nat -> unbroken src = S ++ x -> Forall sym S -> stops x -> 0 <= n <= zlen dst -> run dst n S x (slow fuel e dst n src).
Proof.
  induction fuel as [|f IH]; intros dst n src S x Lf E F St B; [lia|]. cbn [slow]. destruct src as [|c src].
  - cbn in E. symmetry in E. apply app_eq_nil in E as [-> ->]. change false with (some (@nil Z ++ [])). apply run_stop; [cbn; lia|reflexivity].
  - apply quantum_round; [discriminate|assumption..| |].
    + intros. apply IH; (assumption || lia).
    + intros. destruct f; [cbn [length] in Lf; lia|reflexivity].
Qed.
Lemma sym_head c r S x : sym c -> unbroken (c :: r) = S ++ x -> stops x -> exists S', S = c :: S' /\ unbroken r = S' ++ x.
Proof.
  intros Sc E St. rewrite unbroken_cons in E. assert (N : nl c = false) by (destruct (nl c) eqn:Q; [apply nl_not_sym in Q; contradiction|reflexivity]). rewrite N in E. destruct S as [|s S]; [cbn [app] in E; subst x; contradiction|]. injection E as -> E. eauto.
Qed.
Lemma digits_spec k : forall src vs, digits e k src = Some vs -> exists cs r, src = cs ++ r /\ length cs = k /\ Forall sym cs /\ vs = vals cs.
Proof.
  induction k as [|k IH]; intros src vs E; cbn [digits] in E; [injection E as <-; exists [], src; repeat split; constructor|]. destruct src as [|c r]; [discriminate|]. destruct (Z.eqb_spec (dmap e c) 255) as [|N]; [discriminate|]. destruct (digits e k r) as [vs'|] eqn:D; [|discriminate]. injection E as <-.
  destruct (IH _ _ D) as (cs & r' & -> & L & F & ->). exists (c :: cs), r'. split; [reflexivity|]. split; [cbn [length]; lia|]. split; [constructor; assumption|reflexivity].
Qed.
Lemma sym_val c : sym c -> 0 <= dmap e c < 64.
Proof. intros N. destruct (e_val c); [assumption|contradiction]. Qed.
Lemma bytes4 a b c d : 0 <= a < 64 -> 0 <= b < 64 -> 0 <= c < 64 -> 0 <= d < 64 -> be_bytes 4 (packed [a; b; c; d] [26; 20; 14; 8]) = q3 a b c d ++ [0].
Proof.
  intros. apply be_num_inj; [apply be_bytes_is_bytes|apply is_bytes_app; split; [apply q3_bytes|apply Forall_cons; [unfold is_byte; lia|apply Forall_nil]]|rewrite be_bytes_length; reflexivity|]. rewrite be_num_be_bytes, be_num_app, q3_num by assumption. cbn [packed]. change (be_num [0]) with 0. change (256 ^ zlen [0]) with 256. change (256 ^ Z.of_nat 4) with (2 ^ 32). rewrite Z.mod_small by lia. lia.
Qed.
Lemma bytes8 a b c d a' b' c' d' : 0 <= a < 64 -> 0 <= b < 64 -> 0 <= c < 64 -> 0 <= d < 64 -> 0 <= a' < 64 -> 0 <= b' < 64 -> 0 <= c' < 64 -> 0 <= d' < 64 ->
  be_bytes 8 (packed [a; b; c; d; a'; b'; c'; d'] [58; 52; 46; 40; 34; 28; 22; 16]) = q3 a b c d ++ q3 a' b' c' d' ++ [0; 0].
Proof.
  intros. apply be_num_inj; [apply be_bytes_is_bytes|apply is_bytes_app; split; [apply q3_bytes|apply is_bytes_app; split; [apply q3_bytes|repeat (apply Forall_cons; [unfold is_byte; lia|]); apply Forall_nil]]|rewrite be_bytes_length; reflexivity|]. rewrite be_num_be_bytes, !be_num_app, !q3_num by assumption. cbn [packed]. change (be_num [0; 0]) with 0. change (256 ^ zlen [0; 0]) with 65536. change (256 ^ zlen (q3 a' b' c' d' ++ [0; 0])) with (2 ^ 40). change (256 ^ Z.of_nat 8) with (2 ^ 64). rewrite Z.mod_small by lia. lia.
Qed.
Lemma fast32_run : forall fuel dst n src S x, (length src < fuel)%nat -> unbroken src = S ++ x -> Forall sym S -> stops x -> 0 <= n <= zlen dst ->
  run dst n S x (fast fuel 4 3 (decode32 e) e (fun dst n src => slow (Datatypes.S (length src)) e dst n src) dst n src).
Proof.
  induction fuel as [|f IH]; intros dst n src S x Lf E F St B; [lia|]. cbn [fast]. destruct ((4 <=? zlen src) && (4 <=? zlen dst - n)) eqn:C; [|apply slow_run; (assumption || lia)]. unfold decode32 at 1. destruct (digits e 4 src) as [vs|] eqn:D.
  - destruct (digits_spec 4 src vs D) as (cs & r & -> & Lc & Fc & ->). destruct cs as [|a [|b [|c [|d [|? ?]]]]]; try discriminate Lc. apply Forall_cons_iff in Fc as [Fa Fc]. apply Forall_cons_iff in Fc as [Fb Fc]. apply Forall_cons_iff in Fc as [Fc Fd]. apply Forall_cons_iff in Fd as [Fd _]. cbn [app] in E.
    apply sym_head in E as (S1 & -> & E); [|assumption..]. apply sym_head in E as (S2 & -> & E); [|assumption..]. apply sym_head in E as (S3 & -> & E); [|assumption..]. apply sym_head in E as (S4 & -> & E); [|assumption..]. do 4 (apply Forall_cons_iff in F as [_ F]). change (skipn (Z.to_nat 4) ([a; b; c; d] ++ r)) with r.
    change (Z.to_nat 4) with 4%nat. cbn [vals map]. rewrite bytes4 by (apply sym_val; assumption). set (g := q3 (dmap e a) (dmap e b) (dmap e c) (dmap e d)). assert (Lg : zlen g = 3) by reflexivity. assert (Lz : zlen [0] = 1) by reflexivity.
    apply run_full with (put_at dst n (g ++ [0])); [lia|apply put_wrote; lia|]. apply IH; [|assumption..|]; [rewrite app_length in Lf; cbn [length] in Lf; lia|]. rewrite put_len by (rewrite ?zlen_app; lia). lia.
  - apply (quantum_round (fast f 4 3 (decode32 e) e (fun dst n src => slow (Datatypes.S (length src)) e dst n src))); [intros ->; discriminate C|assumption..| |].
    + intros. apply IH; (assumption || lia).
    + intros. destruct f; [destruct src; [discriminate C|cbn [length] in Lf; lia]|reflexivity].
Qed.
Lemma fast64_run : forall fuel dst n src S x, (length src < fuel)%nat -> unbroken src = S ++ x -> Forall sym S -> stops x -> 0 <= n <= zlen dst ->
  run dst n S x (fast fuel 8 6 (decode64 e) e (fun dst n src => fast (Datatypes.S (length src)) 4 3 (decode32 e) e (fun dst n src => slow (Datatypes.S (length src)) e dst n src) dst n src) dst n src).
Proof.
  induction fuel as [|f IH]; intros dst n src S x Lf E F St B; [lia|]. cbn [fast]. destruct ((8 <=? zlen src) && (8 <=? zlen dst - n)) eqn:C; [|apply (fast32_run (Datatypes.S (length src))); (assumption || lia)]. unfold decode64 at 1. destruct (digits e 8 src) as [vs|] eqn:D.
  - destruct (digits_spec 8 src vs D) as (cs & r & -> & Lc & Fc & ->). destruct cs as [|a [|b [|c [|d [|a' [|b' [|c' [|d' [|? ?]]]]]]]]]; try discriminate Lc.
    apply Forall_cons_iff in Fc as [Fa Fc]. apply Forall_cons_iff in Fc as [Fb Fc]. apply Forall_cons_iff in Fc as [Fc Fd]. apply Forall_cons_iff in Fd as [Fd Fc']. apply Forall_cons_iff in Fc' as [Fa' Fc']. apply Forall_cons_iff in Fc' as [Fb' Fc']. apply Forall_cons_iff in Fc' as [Fc' Fd']. apply Forall_cons_iff in Fd' as [Fd' _]. cbn [app] in E.
    do 8 (let S' := fresh "S" in apply sym_head in E as (S' & -> & E); [|assumption..]). do 8 (apply Forall_cons_iff in F as [_ F]). change (skipn (Z.to_nat 8) ([a; b; c; d; a'; b'; c'; d'] ++ r)) with r.
    change (Z.to_nat 8) with 8%nat. cbn [vals map]. rewrite bytes8 by (apply sym_val; assumption). set (g := q3 (dmap e a) (dmap e b) (dmap e c) (dmap e d)). set (h := q3 (dmap e a') (dmap e b') (dmap e c') (dmap e d')). assert (Lg : zlen g = 3) by reflexivity. assert (Lh : zlen h = 3) by reflexivity. assert (Lz : zlen [0; 0] = 2) by reflexivity.
    rewrite put_app by (rewrite ?zlen_app; lia). apply run_full with (put_at dst n g); [lia|apply wrote_put; lia|]. rewrite Lg. assert (LP : zlen (put_at dst n g) = zlen dst) by (apply put_len; lia).
    apply run_full with (put_at (put_at dst n g) (n + 3) (h ++ [0; 0])); [lia|apply put_wrote; lia|]. replace (n + 3 + 3) with (n + 6) by lia. apply IH; [|assumption..|]; [rewrite app_length in Lf; cbn [length] in Lf; lia|]. rewrite put_len by (rewrite ?zlen_app; lia). lia.
  - apply (quantum_round (fast f 8 6 (decode64 e) e (fun dst n src => fast (Datatypes.S (length src)) 4 3 (decode32 e) e (fun dst n src => slow (Datatypes.S (length src)) e dst n src) dst n src))); [intros ->; discriminate C|assumption..| |].
    + intros. apply IH; (assumption || lia).
    + intros. destruct f; [destruct src; [discriminate C|cbn [length] in Lf; lia]|reflexivity].
Qed.
Lemma decode_run dst src S x : unbroken src = S ++ x -> Forall sym S -> stops x -> run dst 0 S x (decode e dst src).
Proof.
  intros E F St. unfold decode. pose proof (zlen_nonneg dst). destruct src as [|c src].
  - cbn in E. symmetry in E. apply app_eq_nil in E as [-> ->]. change false with (some (@nil Z ++ [])). apply run_stop; [cbn; lia|reflexivity].
  - apply fast64_run; (assumption || lia).
Qed.

(** ** The whole text *)
Definition okt (A pad : list Z) : Prop := Forall sym A /\ In (zlen A mod 4, pad) [(0, []); (2, str "=="); (3, str "=")] /\ (pad <> [] -> ~ sym 61).
Lemma okt_cases A pad : okt A pad -> (zlen A mod 4 = 0 /\ pad = []) \/ (zlen A mod 4 = 2 /\ pad = [61; 61]) \/ (zlen A mod 4 = 3 /\ pad = [61]).
Proof. intros [_ [[I|[I|[I|[]]]] _]]; injection I as <- <-; auto. Qed.
Lemma okt_short A pad : okt A pad -> zlen A < 4 -> (A = [] /\ pad = []) \/ (zlen A = 2 /\ pad = [61; 61]) \/ (zlen A = 3 /\ pad = [61]).
Proof.
  intros O L. pose proof (zlen_nonneg A). apply okt_cases in O. rewrite Z.mod_small in O by lia. destruct O as [[O1 O2]|O]; [left; split; [|exact O2]; destruct A; [reflexivity|rewrite zlen_cons in O1; pose proof (zlen_nonneg A); lia]|right; exact O].
Qed.
Lemma sym_le A t S x : Forall sym A -> A ++ t = S ++ x -> stops x -> (length A <= length S)%nat.
Proof.
  intros F. revert S. induction F as [|a A Fa F IH]; intros S E St; [cbn [length]; lia|]. destruct S as [|s S]; cbn [app] in E; [subst x; contradiction|]. injection E as _ E. apply IH in E; [cbn [length]; lia|exact St].
Qed.
Lemma tail_some S x : tail_of 2 ([61; 61] ++ S ++ x) = Some (S ++ x) /\ tail_of 3 ([61] ++ S ++ x) = Some (S ++ x).
Proof. split; reflexivity. Qed.
Lemma tail_inv (S : list Z) x y : tail_of (zlen S) x = Some y -> (zlen S = 2 /\ x = [61; 61] ++ y) \/ (zlen S = 3 /\ x = [61] ++ y).
Proof.
  intros T. destruct (tail_len S x y T) as [L|L]; rewrite L in T; unfold tail_of in T; destruct x as [|c x]; try discriminate; destruct c as [|p|p]; try discriminate; repeat (destruct p as [p|p|]; try discriminate).
  - change (2 =? 2) with true in T. cbv iota in T. destruct x as [|c x]; try discriminate; destruct c as [|p|p]; try discriminate; repeat (destruct p as [p|p|]; try discriminate). injection T as ->. left. auto.
  - change (3 =? 2) with false in T. change (3 =? 3) with true in T. cbv iota in T. injection T as ->. right. auto.
Qed.
Lemma run_sum dst n S x r : run dst n S x r -> Forall sym S -> stops x -> 0 <= n ->
  match r with
  | Err => False
  | Panic => exists A pad B, S ++ x = A ++ pad ++ B /\ okt A pad /\ zlen dst - n < (zlen A + zlen pad) / 4 * 3
  | Ok (dst', m, bad) => exists A pad B, S ++ x = A ++ pad ++ B /\ okt A pad /\
      (forall A' pad' B', S ++ x = A' ++ pad' ++ B' -> okt A' pad' -> zlen A' + zlen pad' <= zlen A + zlen pad) /\
      ((zlen A + zlen pad) / 4 * 3 <= zlen dst - n \/ (A = [] /\ pad = [])) /\ m = n + zlen (unpack (vals A)) /\ (0 <= n <= zlen dst -> wrote dst n (unpack (vals A)) dst') /\ bad = some B
  end.
Proof.
  assert (PADS : forall A pad, okt A pad -> zlen A < 4 -> zlen A + zlen pad <= 4) by (intros A pad O L; destruct (okt_short A pad O L) as [[-> ->]|[[Q ->]|[Q ->]]]; [cbn; lia|rewrite Q; cbn; lia|rewrite Q; cbn; lia]).
  assert (NIL : okt [] []) by (split; [constructor|split; [left; reflexivity|congruence]]).
  induction 1 as [dst n a b c d S x dst1 r R W H IH|dst n a b c d S x R|dst n S x y dst1 L T R W|dst n S x y L T R|dst n S x L T]; intros F St N.
  - do 4 (apply Forall_cons_iff in F as [? F]). specialize (IH F St ltac:(lia)). pose proof (wrote_len _ _ _ _ W) as WL. rewrite WL in IH.
    assert (OK4 : forall A pad, okt A pad -> okt (a :: b :: c :: d :: A) pad).
    { intros A pad (O1 & O2 & O3). split; [repeat (constructor; [assumption|]); exact O1|]. split; [|exact O3]. rewrite !zlen_cons. replace (1 + (1 + (1 + (1 + zlen A)))) with (zlen A + 1 * 4) by lia. rewrite Z.mod_add by lia. exact O2. }
    assert (D4 : forall A pad : list Z, (zlen (a :: b :: c :: d :: A) + zlen pad) / 4 * 3 = (zlen A + zlen pad) / 4 * 3 + 3) by (intros A pad; rewrite !zlen_cons; replace (1 + (1 + (1 + (1 + zlen A))) + zlen pad) with (zlen A + zlen pad + 1 * 4) by lia; rewrite Z.div_add by lia; lia).
    destruct r as [((dst', m), bad)| |]; [|exact IH|].
    + destruct IH as (A & pad & B & E & O & M & Rm & Em & Wm & Eb). exists (a :: b :: c :: d :: A), pad, B. cbn [app]. rewrite E. split; [reflexivity|]. split; [apply OK4; exact O|]. split.
      { intros A' pad' B' E' O'. destruct (Z.lt_ge_cases (zlen A') 4) as [L4|L4].
        - pose proof (PADS A' pad' O' L4). rewrite !zlen_cons. pose proof (zlen_nonneg A). pose proof (zlen_nonneg pad). lia.
        - destruct A' as [|a1 [|a2 [|a3 [|a4 A']]]]; try (unfold zlen in L4; cbn in L4; lia). cbn [app] in E'. injection E' as -> -> -> -> E'. rewrite <- E in E'.
          assert (O'' : okt A' pad'). { destruct O' as (O1 & O2 & O3). do 4 (apply Forall_cons_iff in O1 as [_ O1]). split; [exact O1|]. split; [|exact O3]. rewrite !zlen_cons in O2. replace (1 + (1 + (1 + (1 + zlen A')))) with (zlen A' + 1 * 4) in O2 by lia. rewrite Z.mod_add in O2 by lia. exact O2. }
          specialize (M A' pad' B' E' O''). rewrite !zlen_cons. lia. }
      split. { left. rewrite D4. destruct Rm as [Rm|[-> ->]]; [lia|]. change ((zlen (@nil Z) + zlen (@nil Z)) / 4 * 3) with 0. lia. }
      split; [|split; [|exact Eb]].
      * rewrite Em. cbn [vals map unpack]. rewrite zlen_app. change (zlen (q3 (dmap e a) (dmap e b) (dmap e c) (dmap e d))) with 3. unfold vals. lia.
      * intros NB. cbn [vals map unpack]. apply wrote_app with dst1; [lia|exact W|]. change (zlen (q3 (dmap e a) (dmap e b) (dmap e c) (dmap e d))) with 3. apply Wm. lia.
    + destruct IH as (A & pad & B & E & O & Rm). exists (a :: b :: c :: d :: A), pad, B. cbn [app]. rewrite E. split; [reflexivity|]. split; [apply OK4; exact O|]. rewrite D4. lia.
  - do 4 (apply Forall_cons_iff in F as [? F]). exists [a; b; c; d], [], (S ++ x). split; [reflexivity|]. split; [split; [repeat (constructor; [assumption|]); constructor|split; [left; reflexivity|congruence]]|]. change ((zlen [a; b; c; d] + zlen (@nil Z)) / 4 * 3) with 3. lia.
  - assert (LM : forall A' pad' B', S ++ x = A' ++ pad' ++ B' -> okt A' pad' -> zlen A' + zlen pad' <= 4). { intros A' pad' B' E' O'. apply PADS; [exact O'|]. symmetry in E'. apply sym_le in E'; [unfold zlen; lia|apply O'|exact St]. }
    destruct (tail_inv S x y T) as [[LS ->]|[LS ->]].
    + exists S, [61; 61], y. split; [reflexivity|]. split; [split; [exact F|split; [right; left; rewrite LS; reflexivity|intros _; exact St]]|]. rewrite LS. split; [exact LM|]. split; [left; change ((2 + zlen [61; 61]) / 4 * 3) with 3; lia|]. split; [reflexivity|]. split; [intros _; exact W|reflexivity].
    + exists S, [61], y. split; [reflexivity|]. split; [split; [exact F|split; [right; right; left; rewrite LS; reflexivity|intros _; exact St]]|]. rewrite LS. split; [exact LM|]. split; [left; change ((3 + zlen [61]) / 4 * 3) with 3; lia|]. split; [reflexivity|]. split; [intros _; exact W|reflexivity].
  - destruct (tail_inv S x y T) as [[LS ->]|[LS ->]].
    + exists S, [61; 61], y. split; [reflexivity|]. split; [split; [exact F|split; [right; left; rewrite LS; reflexivity|intros _; exact St]]|]. rewrite LS. change ((2 + zlen [61; 61]) / 4 * 3) with 3. lia.
    + exists S, [61], y. split; [reflexivity|]. split; [split; [exact F|split; [right; right; left; rewrite LS; reflexivity|intros _; exact St]]|]. rewrite LS. change ((3 + zlen [61]) / 4 * 3) with 3. lia.
  - exists [], [], (S ++ x). split; [reflexivity|]. split; [exact NIL|]. split; [|split; [right; auto|split; [cbn; lia|split; [intros B; apply wrote_nil; exact B|reflexivity]]]].
    intros A' pad' B' E' O'. assert (L' : zlen A' < 4) by (symmetry in E'; apply sym_le in E'; [unfold zlen; lia|apply O'|exact St]). destruct (okt_short A' pad' O' L') as [[-> ->]|O2]; [reflexivity|]. exfalso.
    assert (SP : stops (pad' ++ B')) by (destruct O' as (_ & _ & O3); destruct O2 as [[_ ->]|[_ ->]]; cbn [app stops]; apply O3; discriminate).
    destruct (prefix_unique S A' x (pad' ++ B') F (proj1 O') St SP E') as [-> ->]. destruct O2 as [[Q ->]|[Q ->]]; rewrite Q in T; discriminate T.
Qed.
End E.

(** ** The decode map *)
Lemma set_nth_same l i v : (i < length l)%nat -> nth i (set_nth l i v) 255 = v.
Proof. revert i. induction l as [|x l IH]; intros [|i] L; cbn [length] in L; try lia; cbn [set_nth nth]; [reflexivity|apply IH; lia]. Qed.
Lemma set_nth_other l i j v : i <> j -> nth j (set_nth l i v) 255 = nth j l 255.
Proof. revert i j. induction l as [|x l IH]; intros [|i] [|j] N; cbn [set_nth nth]; try reflexivity; try contradiction. apply IH. congruence. Qed.
Lemma set_nth_len l i v : length (set_nth l i v) = length l.
Proof. revert i. induction l as [|x l IH]; intros [|i]; cbn [set_nth length]; [reflexivity..|]. rewrite IH. reflexivity. Qed.
Lemma fill_other s : forall i m j, (forall c, In c s -> Z.to_nat c <> j) -> nth j (fill_map s i m) 255 = nth j m 255.
Proof. induction s as [|c s IH]; intros i m j N; cbn [fill_map]; [reflexivity|]. rewrite IH by (intros; apply N; right; assumption). apply set_nth_other. apply N. left. reflexivity. Qed.
Lemma fill_at s : forall i m p, (forall q, (p < q < length s)%nat -> nth q s 0 <> nth p s 0) -> is_bytes s -> length m = 257%nat -> (p < length s)%nat -> nth (Z.to_nat (nth p s 0)) (fill_map s i m) 255 = i + Z.of_nat p.
Proof.
  induction s as [|c s IH]; intros i m p ND B Lm L; cbn [length] in L; [lia|]. apply Forall_cons_iff in B as [Bc B]. cbn [fill_map]. destruct p as [|p]; cbn [nth].
  - rewrite fill_other, set_nth_same; [lia|unfold is_byte in Bc; lia|]. intros c' I Q. pose proof I as J. rewrite Forall_forall in B. specialize (B c' I). unfold is_byte in *. assert (c' = c) by lia. subst c'. destruct (In_nth _ _ 0 J) as (q & Lq & Eq). apply (ND (S q)); [cbn [length]; lia|exact Eq].
  - rewrite IH; [lia|intros q Lq; apply (ND (S q)); cbn [length]; lia|assumption..|rewrite set_nth_len; exact Lm|lia].
Qed.
Lemma last_place c : forall s, In c s -> exists p, (p < length s)%nat /\ nth p s 0 = c /\ forall q, (p < q < length s)%nat -> nth q s 0 <> c.
Proof.
  induction s as [|x s IH]; intros I; [destruct I|]. destruct (in_dec Z.eq_dec c s) as [J|J].
  - destruct (IH J) as (p & L & E & N). exists (S p). split; [cbn [length]; lia|]. split; [exact E|]. intros [|q] Lq; [lia|]. cbn [nth]. apply N. cbn [length] in Lq. lia.
  - destruct I as [->|I]; [|contradiction]. exists O. split; [cbn [length]; lia|]. split; [reflexivity|]. intros [|q] Lq E; [lia|]. cbn [nth] in E. apply J. rewrite <- E. apply nth_In. cbn [length] in Lq. lia.
Qed.
Section A.
Variable alphabet : list Z.
Hypothesis AB : b64_alphabet alphabet.
Variable e : encoding.
Hypothesis NE : new_encoding alphabet = Ok e.
Lemma e_is : e = mkEnc (go_copy [] alphabet) (fill_map alphabet 0 (repeat 255 257)) 61 false.
Proof. unfold new_encoding in NE. destruct (negb _); [discriminate|]. destruct (existsb _ _); [discriminate|]. congruence. Qed.
Lemma dmap_in v : b64_digit alphabet v -> dmap e (nth (Z.to_nat v) alphabet 0) = v.
Proof.
  intros [V W]. destruct AB as (B & L & _). unfold dmap. rewrite e_is. cbn [enc_map]. rewrite fill_at; [lia| |exact B|reflexivity|lia].
  intros q Lq. rewrite <- (Nat2Z.id q). apply W. lia.
Qed.
Lemma dmap_out c : 0 <= c -> ~ In c alphabet -> dmap e c = 255.
Proof.
  intros C N. destruct AB as (B & L & _). unfold dmap. rewrite e_is. cbn [enc_map]. rewrite fill_other; [destruct (Nat.lt_ge_cases (Z.to_nat c) 257) as [H|H]; [apply nth_repeat|apply nth_overflow; rewrite repeat_length; exact H]|].
  intros c' I Q. unfold is_bytes in B. rewrite Forall_forall in B. specialize (B c' I). unfold is_byte in B. assert (c' = c) by lia. congruence.
Qed.
Lemma dmap_place c : In c alphabet -> b64_digit alphabet (dmap e c) /\ c = nth (Z.to_nat (dmap e c)) alphabet 0.
Proof.
  intros I. destruct (last_place c alphabet I) as (p & Lp & Ep & N). destruct AB as (_ & L & _).
  assert (D : b64_digit alphabet (Z.of_nat p)) by (split; [lia|]; intros w Lw; rewrite Nat2Z.id, Ep; apply N; lia).
  assert (Q : dmap e c = Z.of_nat p) by (rewrite <- Ep, <- (Nat2Z.id p) at 1; apply dmap_in; exact D). rewrite Q. split; [exact D|]. rewrite Nat2Z.id. symmetry. exact Ep.
Qed.
Lemma dmap_val c : 0 <= dmap e c < 64 \/ dmap e c = 255.
Proof.
  assert (Q : dmap e c = dmap e (Z.of_nat (Z.to_nat c))) by (unfold dmap; rewrite Nat2Z.id; reflexivity). rewrite Q. destruct (in_dec Z.eq_dec (Z.of_nat (Z.to_nat c)) alphabet) as [I|N]; [|right; apply dmap_out; [lia|exact N]]. left. destruct (dmap_place _ I) as [[V _] _]. exact V.
Qed.
Lemma dmap_back c : is_byte c -> dmap e c <> 255 -> b64_digit alphabet (dmap e c) /\ c = nth (Z.to_nat (dmap e c)) alphabet 0.
Proof.
  intros C N. unfold is_byte in C. apply dmap_place. destruct (in_dec Z.eq_dec c alphabet) as [I|I]; [exact I|destruct N; apply dmap_out; [lia|exact I]].
Qed.
Lemma sym61 : sym e 61 <-> In 61 alphabet.
Proof.
  unfold sym. split; [intros Q; destruct (in_dec Z.eq_dec 61 alphabet) as [I|I]; [exact I|destruct Q; apply dmap_out; [lia|exact I]]|]. intros I Q. destruct (dmap_place _ I) as [[V _] _]. rewrite Q in V. lia.
Qed.
Lemma text_iff s data room : is_bytes s -> b64_text alphabet s data room <-> exists A pad, unbroken s = A ++ pad /\ okt e A pad /\ data = unpack (vals e A) /\ room = (zlen A + zlen pad) / 4 * 3.
Proof.
  intros Bs. assert (PD : forall n pad, In (n mod 4, pad) [(0, []); (2, str "=="); (3, str "=")] -> n mod 4 <> 1 /\ zlen pad = pads n).
  { intros n pad I. unfold pads. destruct I as [I|[I|[I|[]]]]; injection I as I1 <-; rewrite <- I1; split; try discriminate; reflexivity. }
  split.
  - intros (vs & pad & E & V & I & NP & Bd & Ld & Nd & ->). assert (V0 : Forall (fun v => 0 <= v < 64) vs) by (eapply Forall_impl; [|exact V]; intros v [Hv _]; exact Hv). set (A := map (fun v => nth (Z.to_nat v) alphabet 0) vs) in *. assert (VA : vals e A = vs). { unfold vals, A. rewrite map_map. clear E I Ld Nd A V0. induction V as [|v vs Hv V IH]; [reflexivity|]. cbn [map]. rewrite dmap_in by exact Hv. f_equal. exact IH. }
    assert (LA : zlen A = zlen vs) by (unfold zlen, A; rewrite map_length; reflexivity). exists A, pad. split; [exact E|]. rewrite LA. destruct (PD _ _ I) as [P1 P2]. split; [split; [|split; [rewrite LA; exact I|intros Q; rewrite sym61; exact (NP Q)]]|split; [|reflexivity]].
    + unfold A. apply Forall_map. eapply Forall_impl; [|exact V]. intros v Hv. cbv beta in *. unfold sym. rewrite dmap_in by exact Hv. destruct Hv as [Hv _]. intros Q. clear - Hv Q. lia.
    + rewrite VA. apply be_num_inj; [exact Bd|apply unpack_bytes|pose proof (unpack_len vs P1) as Q; unfold zlen in *; lia|]. rewrite unpack_num, <- P2 by assumption. exact Nd.
  - intros (A & pad & E & (FA & I & NP) & -> & ->). exists (vals e A), pad. assert (LA : zlen (vals e A) = zlen A) by (unfold zlen, vals; rewrite map_length; reflexivity). destruct (PD _ _ I) as [P1 P2].
    assert (BA : is_bytes A). { assert (BU : is_bytes (unbroken s)) by (unfold is_bytes, unbroken in *; rewrite Forall_forall in *; intros c J; apply filter_In in J as [J _]; auto). rewrite E in BU. apply is_bytes_app in BU as [BU _]. exact BU. }
    assert (VA : Forall (fun v => 0 <= v < 64) (vals e A)). { unfold vals. apply Forall_map. eapply Forall_impl; [|exact FA]. intros c Hc. cbv beta. destruct (dmap_val c); [assumption|contradiction]. }
    assert (VD : Forall (b64_digit alphabet) (vals e A)). { unfold vals. apply Forall_map. apply Forall_forall. intros c J. unfold is_bytes in BA. rewrite Forall_forall in FA, BA. apply dmap_back; [exact (BA c J)|exact (FA c J)]. }
    rewrite LA. split; [|split; [exact VD|]; split; [exact I|]; split; [intros Q; rewrite <- sym61; exact (NP Q)|]; split; [apply unpack_bytes|]; split; [rewrite unpack_len by (rewrite LA; exact P1); rewrite LA; reflexivity|]; split; [rewrite unpack_num by (assumption || (rewrite LA; exact P1)); rewrite LA, P2; reflexivity|reflexivity]].
    rewrite E. f_equal. unfold vals. rewrite map_map. clear E I P1 P2 LA VA VD. induction FA as [|c A Hc FA IH]; [reflexivity|]. apply Forall_cons_iff in BA as [Bc BA]. cbn [map]. destruct (dmap_back c Bc Hc) as [_ <-]. f_equal. apply IH. exact BA.
Qed.
Lemma unbroken_app a b : unbroken (a ++ b) = unbroken a ++ unbroken b.
Proof. apply filter_app. Qed.
Lemma unbroken_split src : forall A B, unbroken src = A ++ B -> exists p q, src = p ++ q /\ unbroken p = A /\ unbroken q = B.
Proof.
  induction src as [|c src IH]; intros A B E.
  - cbn in E. symmetry in E. apply app_eq_nil in E as [-> ->]. exists [], []. auto.
  - rewrite unbroken_cons in E. destruct (nl c) eqn:N.
    + destruct (IH A B E) as (p & q & -> & P & Q). exists (c :: p), q. split; [reflexivity|]. rewrite unbroken_cons, N. auto.
    + destruct A as [|a A].
      * cbn [app] in E. exists [], (c :: src). rewrite unbroken_cons, N. auto.
      * cbn [app] in E. injection E as -> E. destruct (IH A B E) as (p & q & -> & P & Q). exists (a :: p), q. split; [reflexivity|]. rewrite unbroken_cons, N, P. auto.
Qed.
End A.

(** ** Theorems *)
(** The destination [dst] with [data] at its start; the two bytes behind them may have changed. *)
Definition holds (dst data dst' : bytes) : Prop := zlen dst' = zlen dst /\ firstn (length data) dst' = data /\ skipn (length data + 2) dst' = skipn (length data + 2) dst.
(** [s] is the longest beginning of [src] that is a Base64 text, up to line breaks. *)
Definition longest_text (alphabet src s rest : list Z) (data : bytes) (room : Z) : Prop :=
  src = s ++ rest /\ b64_text alphabet s data room /\
  forall s' rest' data' room', src = s' ++ rest' -> b64_text alphabet s' data' room' -> zlen (unbroken s') <= zlen (unbroken s).

Lemma decode_sum alphabet e dst src : b64_alphabet alphabet -> new_encoding alphabet = Ok e -> is_bytes src ->
  match decode e dst src with
  | Err => False
  | Panic => exists s rest data room, src = s ++ rest /\ b64_text alphabet s data room /\ zlen dst < room
  | Ok (dst', n, bad) => exists s rest data room, longest_text alphabet src s rest data room /\ room <= zlen dst /\ n = zlen data /\ holds dst data dst' /\ (bad = true <-> unbroken rest <> [])
  end.
Proof.
  intros AB NE Bs. pose proof (e_is alphabet e NE) as EI. assert (H10 : dmap e 10 = 255) by (apply (dmap_out alphabet); (lia || apply AB || assumption)). assert (H13 : dmap e 13 = 255) by (apply (dmap_out alphabet); (lia || apply AB || assumption)).
  assert (HP : enc_pad e = 61) by (rewrite EI; reflexivity). assert (HS : enc_strict e = false) by (rewrite EI; reflexivity). pose proof (dmap_val alphabet AB e NE) as HV.
  destruct (max_prefix e (unbroken src)) as (S & x & E & F & St). pose proof (decode_run e (conj H10 H13) HP HS HV dst src S x E F St) as R. pose proof (zlen_nonneg dst) as ZD. pose proof (run_sum e HV dst 0 S x _ R F St ltac:(lia)) as Q.
  destruct (decode e dst src) as [((dst', n), bad)| |]; [|exact Q|].
  - destruct Q as (A & pad & B & E1 & O & M & Rm & En & W & Eb). rewrite E1, app_assoc in E. destruct (unbroken_split src _ _ E) as (s & rest & -> & U1 & U2). apply is_bytes_app in Bs as [Bs Br].
    exists s, rest, (unpack (vals e A)), ((zlen A + zlen pad) / 4 * 3). split; [|split; [|split; [|split]]].
    + split; [reflexivity|]. split; [apply (text_iff alphabet AB e NE s _ _ Bs); exists A, pad; auto|]. intros s' rest' data' room' E' T'.
      assert (Bs' : is_bytes s') by (assert (is_bytes (s ++ rest)) as Ball by (apply is_bytes_app; auto); rewrite E' in Ball; apply is_bytes_app in Ball as [? _]; assumption).
      apply (text_iff alphabet AB e NE s' _ _ Bs') in T' as (A' & pad' & U' & O' & _). rewrite U1, U', !zlen_app. apply (M A' pad' (unbroken rest')); [|exact O']. rewrite E1, !app_assoc, <- U1, <- U2, <- U', <- !unbroken_app, E'. reflexivity.
    + rewrite Z.sub_0_r in Rm. destruct Rm as [Rm|[-> ->]]; [exact Rm|]. change ((zlen (@nil Z) + zlen (@nil Z)) / 4 * 3) with 0. exact ZD.
    + lia.
    + pose proof (W ltac:(lia)) as W'. split; [eapply wrote_len; eassumption|]. destruct W' as (t & -> & _ & Wt). change (Z.to_nat 0) with 0%nat in *. cbn [firstn app Nat.add] in *. split.
      * rewrite firstn_app, Nat.sub_diag, firstn_O, app_nil_r. apply firstn_all.
      * rewrite skipn_app, skipn_all2 by lia. cbn [app]. replace (length (unpack (vals e A)) + 2 - length (unpack (vals e A)))%nat with 2%nat by lia. exact Wt.
    + rewrite U2, Eb. destruct B; cbn [some]; split; intros; congruence.
  - destruct Q as (A & pad & B & E1 & O & Rm). rewrite E1, app_assoc in E. destruct (unbroken_split src _ _ E) as (s & rest & -> & U1 & U2). apply is_bytes_app in Bs as [Bs Br].
    exists s, rest, (unpack (vals e A)), ((zlen A + zlen pad) / 4 * 3). split; [reflexivity|]. split; [apply (text_iff alphabet AB e NE s _ _ Bs); exists A, pad; auto|]. lia.
Qed.
Lemma room_le alphabet s data room : b64_text alphabet s data room -> room = zlen (unbroken s) / 4 * 3.
Proof. intros (vs & pad & E & _ & _ & _ & _ & _ & _ & ->). rewrite E, zlen_app. unfold zlen at 3. rewrite map_length. reflexivity. Qed.
Lemma text_fun alphabet e s data room data' room' : b64_alphabet alphabet -> new_encoding alphabet = Ok e -> is_bytes s -> b64_text alphabet s data room -> b64_text alphabet s data' room' -> data = data' /\ room = room'.
Proof.
  intros AB NE Bs T T'. split; [|rewrite (room_le _ _ _ _ T), (room_le _ _ _ _ T'); reflexivity]. apply (text_iff alphabet AB e NE s _ _ Bs) in T as (A & pad & E & O & -> & _). apply (text_iff alphabet AB e NE s _ _ Bs) in T' as (A' & pad' & E' & O' & -> & _). rewrite E in E'.
  assert (SP : forall A pad, okt e A pad -> stops e pad) by (intros A0 pad0 O0; pose proof O0 as (_ & _ & O3); apply okt_cases in O0 as [[_ ->]|[[_ ->]|[_ ->]]]; cbn [stops]; [exact I|apply O3; discriminate..]).
  destruct (prefix_unique e A A' pad pad' (proj1 O) (proj1 O') (SP _ _ O) (SP _ _ O') E') as [-> _]. reflexivity.
Qed.

(** C145: what Decode returns, for every text and destination. It decodes the longest beginning that is a Base64 text. *)
Theorem base64_decode_result : forall alphabet e dst src dst' n bad,
  b64_alphabet alphabet -> new_encoding alphabet = Ok e -> is_bytes src -> decode e dst src = Ok (dst', n, bad) ->
  exists s rest data room, longest_text alphabet src s rest data room /\ room <= zlen dst /\ n = zlen data /\ holds dst data dst' /\ (bad = true <-> unbroken rest <> []).
Proof. intros alphabet e dst src dst' n bad AB NE Bs D. pose proof (decode_sum alphabet e dst src AB NE Bs) as Q. rewrite D in Q. exact Q. Qed.
(** C145: when Decode panics: a beginning of the text needs more room than the destination has. *)
Theorem base64_decode_panics_iff : forall alphabet e dst src,
  b64_alphabet alphabet -> new_encoding alphabet = Ok e -> is_bytes src ->
  decode e dst src = Panic <-> exists s rest data room, src = s ++ rest /\ b64_text alphabet s data room /\ zlen dst < room.
Proof.
  intros alphabet e dst src AB NE Bs. pose proof (decode_sum alphabet e dst src AB NE Bs) as Q. split.
  - intros D. rewrite D in Q. exact Q.
  - intros (s & rest & data & room & E & T & L). destruct (decode e dst src) as [((dst', n), bad)| |]; [|contradiction|reflexivity]. exfalso. destruct Q as (s0 & rest0 & data0 & room0 & (E0 & T0 & M) & R0 & _). specialize (M s rest data room E T). rewrite (room_le _ _ _ _ T) in L. rewrite (room_le _ _ _ _ T0) in R0.
    assert (zlen (unbroken s) / 4 <= zlen (unbroken s0) / 4) by (apply Z.div_le_mono; lia). lia.
Qed.
(** C145: Decode reports no error exactly for the Base64 texts, and then writes the data they stand for. *)
Theorem base64_decode_accepts_iff : forall alphabet e dst src data,
  b64_alphabet alphabet -> new_encoding alphabet = Ok e -> is_bytes src ->
  (exists dst', decode e dst src = Ok (dst', zlen data, false) /\ holds dst data dst') <-> exists room, b64_text alphabet src data room /\ room <= zlen dst.
Proof.
  intros alphabet e dst src data AB NE Bs. pose proof (decode_sum alphabet e dst src AB NE Bs) as Q. split.
  - intros (dst' & D & (_ & Hd & _)). rewrite D in Q. destruct Q as (s & rest & data0 & room & (-> & T & _) & R & En & (_ & Hd0 & _) & Bad). assert (data0 = data) as -> by (rewrite <- Hd, <- Hd0; f_equal; unfold zlen in En; lia). assert (U : unbroken rest = []) by (destruct (unbroken rest) eqn:U; [reflexivity|]; destruct Bad as [_ Bad]; discriminate (Bad ltac:(discriminate))).
    exists room. split; [|exact R]. destruct T as (vs & pad & E & T). exists vs, pad. rewrite unbroken_app, U, app_nil_r. split; [exact E|exact T].
  - intros (room & T & R). destruct (decode e dst src) as [((dst', n), bad)| |] eqn:D; [|contradiction|].
    + destruct Q as (s & rest & data0 & room0 & (E & T0 & M) & _ & -> & H & Bad). specialize (M src [] data room ltac:(rewrite app_nil_r; reflexivity) T). rewrite E, unbroken_app, zlen_app in M. assert (U : unbroken rest = []) by (destruct (unbroken rest); [reflexivity|unfold zlen in M; cbn [length] in M; lia]).
      assert (Fb : bad = false) by (destruct bad; [destruct Bad as [Bad _]; destruct (Bad eq_refl U)|reflexivity]). subst bad. assert (T0' : b64_text alphabet src data0 room0). { destruct T0 as (vs & pad & E0 & T0). exists vs, pad. rewrite E, unbroken_app, U, app_nil_r. split; [exact E0|exact T0]. }
      destruct (text_fun alphabet e src data room data0 room0 AB NE Bs T T0') as [-> _]. exists dst'. split; [reflexivity|exact H].
    + exfalso. apply (base64_decode_panics_iff alphabet e dst src AB NE Bs) in D as (s & rest & data1 & room1 & E & T1 & L). rewrite (room_le _ _ _ _ T) in R. rewrite (room_le _ _ _ _ T1) in L. rewrite E, unbroken_app, zlen_app in R. pose proof (zlen_nonneg (unbroken rest)). assert (zlen (unbroken s) / 4 <= (zlen (unbroken s) + zlen (unbroken rest)) / 4) by (apply Z.div_le_mono; lia). lia.
Qed.
(** C145: a destination of DecodedLen bytes is always enough. *)
Theorem base64_decode_enough : forall alphabet e dst src,
  b64_alphabet alphabet -> new_encoding alphabet = Ok e -> is_bytes src -> decoded_len e (zlen src) <= zlen dst -> exists r, decode e dst src = Ok r.
Proof.
  intros alphabet e dst src AB NE Bs L. pose proof (decode_sum alphabet e dst src AB NE Bs) as Q. destruct (decode e dst src) as [r| |]; [eauto|contradiction|]. exfalso. destruct Q as (s & rest & data & room & -> & T & R). rewrite (room_le _ _ _ _ T) in R. unfold decoded_len in L. rewrite (e_is alphabet e NE) in L. cbn [enc_pad] in L. change (61 =? -1) with false in L. cbv iota in L.
  assert (zlen (unbroken s) <= zlen (s ++ rest)). { rewrite zlen_app. pose proof (zlen_nonneg rest). assert (zlen (unbroken s) <= zlen s); [|lia]. unfold zlen. apply inj_le. clear. induction s as [|c s IH]; [reflexivity|]. rewrite unbroken_cons. destruct (nl c); cbn [length]; lia. }
  assert (zlen (unbroken s) / 4 <= zlen (s ++ rest) / 4) by (apply Z.div_le_mono; lia). lia.
Qed.
(** C145: the standard alphabet; texts with and without padding and with a line break, a text with an error behind its first group. *)
Definition std_alphabet : list Z := str "ABCDEFGHIJKLMNOPQRSTUVWXYZabcdefghijklmnopqrstuvwxyz0123456789+/".
Lemma std_alphabet_ok : b64_alphabet std_alphabet.
Proof.
  assert (Q : forallb (fun c => (0 <=? c) && (c <? 256) && negb (c =? 10) && negb (c =? 13)) std_alphabet = true) by reflexivity. rewrite forallb_forall in Q.
  split; [apply Forall_forall; intros c I; specialize (Q c I); unfold is_byte; lia|]. split; [reflexivity|]. split; intros I; specialize (Q _ I); lia.
Qed.
Example base64_decode_examples : exists e, new_encoding std_alphabet = Ok e /\
  decode e (repeat 0 4) (str "TWFu") = Ok ([77; 97; 110; 0], 3, false) /\ decode e (repeat 9 3) (str "TW" ++ [10] ++ str "E=") = Ok ([77; 97; 9], 2, false) /\
  decode e (repeat 9 6) (str "TWFuT*==") = Ok ([77; 97; 110; 0; 9; 9], 3, true) /\ decode e (repeat 9 2) (str "TQ==") = Panic.
Proof. eexists. split; [reflexivity|]. repeat split; reflexivity. Qed.
(** These are all the alphabets NewEncoding takes; it panics on the others. *)
Theorem base64_alphabets : forall alphabet, is_bytes alphabet ->
  (b64_alphabet alphabet <-> exists e, new_encoding alphabet = Ok e) /\ (~ b64_alphabet alphabet <-> new_encoding alphabet = Panic).
Proof.
  intros alphabet B. unfold new_encoding, b64_alphabet. destruct (zlen alphabet =? 64) eqn:L; cbn [negb].
  2: { unfold zlen in L. split; [split; [intros (_ & Q & _); lia|intros (e & E); discriminate]|split; [reflexivity|intros _ (_ & Q & _); lia]]. }
  destruct (existsb _ alphabet) eqn:X.
  - apply existsb_exists in X as (c & I & N). assert (In 10 alphabet \/ In 13 alphabet) by (assert (c = 10 \/ c = 13) as [-> | ->] by lia; auto). split; [split; [tauto|intros (e & E); discriminate]|split; [reflexivity|tauto]].
  - assert (Q : forall c, In c alphabet -> c <> 10 /\ c <> 13) by (intros c I; assert (N : ((c =? 10) || (c =? 13)) <> true) by (intros N; rewrite <- not_true_iff_false in X; apply X; apply existsb_exists; exists c; auto); lia).
    assert (G : is_bytes alphabet /\ length alphabet = 64%nat /\ ~ In 10 alphabet /\ ~ In 13 alphabet) by (split; [exact B|]; split; [unfold zlen in L; lia|]; split; intros I; apply Q in I; lia).
    split; [split; [eauto|intros _; exact G]|split; [contradiction|discriminate]].
Qed.
(** In an alphabet of different characters each of them has its own value. *)
Theorem base64_digit_distinct : forall alphabet v, length alphabet = 64%nat -> NoDup alphabet -> (b64_digit alphabet v <-> 0 <= v < 64).
Proof.
  intros alphabet v L ND. unfold b64_digit. split; [tauto|]. intros V. split; [exact V|]. intros w W E. assert (Z.to_nat w = Z.to_nat v); [|lia]. apply (proj1 (NoDup_nth alphabet 0) ND); [lia|lia|exact E].
Qed.
(** A character that is repeated stands for its last place; the equals sign may be a character, and then there is no padding. *)
Example base64_decode_repeated : exists e, b64_alphabet (repeat 65 62 ++ [61; 61]) /\ new_encoding (repeat 65 62 ++ [61; 61]) = Ok e /\
  decode e (repeat 0 3) (str "A===") = Ok ([247; 255; 255], 3, false) /\ decode e (repeat 0 3) (str "AA=") = Ok ([0; 0; 0], 0, true).
Proof.
  eexists. split; [|split; [reflexivity|split; reflexivity]]. split; [apply is_bytes_app; split; [apply Forall_forall; intros c I; apply repeat_spec in I; subst c; unfold is_byte; lia|repeat (constructor; [unfold is_byte; lia|]); constructor]|].
  split; [reflexivity|]. split; intros I; (apply in_app_or in I as [I|[I|[I|[]]]]; [apply repeat_spec in I| |]; discriminate).
Qed.
Print Assumptions base64_alphabets.
Print Assumptions base64_digit_distinct.
Print Assumptions base64_decode_result.
Print Assumptions base64_decode_panics_iff.
Print Assumptions base64_decode_accepts_iff.
Print Assumptions base64_decode_enough.
