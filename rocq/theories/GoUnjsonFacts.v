(** What the reader of GoUnjson.v gives for the texts the writer of GoJson.v makes. *)
From Coq Require Import String ZArith List Bool Lia ZifyBool ZifyNat.
From Verif Require Import Go GoFacts Base58Model GoJson Json GoUnjson.
Import ListNotations.
Open Scope Z_scope.
Ltac Zify.zify_post_hook ::= idtac.

(** ** Strings *)
Lemma utf8_rune_scalar c : scalar c -> utf8_rune c = utf8 c.
Proof.
  intros S. unfold utf8_rune, utf8, scalar in *. destruct (c <? 128) eqn:C1; [replace ((0 <=? c) && true) with true by lia; reflexivity|]. rewrite andb_false_r.
  destruct (c <? 2048) eqn:C2; [replace ((0 <=? c) && true) with true by lia; reflexivity|]. rewrite andb_false_r. replace ((c <? 0) || (1114111 <? c) || ((55296 <=? c) && (c <=? 57343))) with false by lia. reflexivity.
Qed.
Lemma gchars_ascii g b s : 0 <= b < 128 -> gchars (S g) (json_ascii b ++ s) = emit [b] (gchars g s).
Proof.
  intros H. unfold json_ascii. destruct (json_safe b) eqn:S.
  { unfold json_safe in S. cbn [app gchars]. replace (b =? 34) with false by lia. replace (b =? 92) with false by lia. replace (b <? 32) with false by lia. unfold rune_step. replace (b <? 128) with true by lia. cbn [skipn]. unfold utf8_rune. replace ((0 <=? b) && (b <? 128)) with true by lia. reflexivity. }
  destruct ((b =? 92) || (b =? 34)) eqn:Q.
  { cbn [app gchars]. change (92 =? 34) with false. change (92 =? 92) with true. cbv iota. replace (b =? 117) with false by lia. unfold short_escape. replace (_ || _ || _) with true by lia. reflexivity. }
  destruct (b =? 10) eqn:Q10. { assert (b = 10) by lia. subst. reflexivity. }
  destruct (b =? 13) eqn:Q13. { assert (b = 13) by lia. subst. reflexivity. }
  destruct (b =? 9) eqn:Q9. { assert (b = 9) by lia. subst. reflexivity. }
  cbn [app gchars]. change (92 =? 34) with false. change (92 =? 92) with true. change (117 =? 117) with true. cbv iota. unfold u4. change (hex_val 48) with (Some 0). cbv iota.
  pose proof (Z.div_mod b 16 ltac:(lia)) as D. pose proof (Z.mod_pos_bound b 16 ltac:(lia)) as M. rewrite !hex_val_digit by lia. replace (0 * 4096 + 0 * 256 + b / 16 * 16 + b mod 16) with b by lia.
  replace (_ && _) with false by lia. unfold utf8_rune. replace ((0 <=? b) && (b <? 128)) with true by lia. reflexivity.
Qed.
Lemma json_ascii_length b : (1 <= length (json_ascii b))%nat.
Proof. unfold json_ascii. destruct (json_safe b); [cbn; lia|]. destruct (_ || _); [cbn; lia|]. destruct (b =? 10); [cbn; lia|]. destruct (b =? 13); [cbn; lia|]. destruct (b =? 9); cbn; lia. Qed.
Lemma gchars_read f : forall s rest g, is_bytes s -> (length s <= f)%nat -> (length (json_chars f s) < g)%nat ->
  gchars g (json_chars f s ++ 34 :: rest) = Some (flat_map utf8 (runes_fuel f s), rest).
Proof.
  induction f as [|f IH]; intros s rest g I L G; [destruct s; [|cbn in L; lia]; destruct g; [lia|]; reflexivity|]. destruct g as [|g]; [lia|]. destruct s as [|b0 r]; [reflexivity|]. cbn [length] in L. apply is_bytes_cons in I as [Ib Ir]. unfold is_byte in Ib.
  assert (Isk : forall n, is_bytes (skipn n r)) by (intros n; rewrite <- (firstn_skipn n r) in Ir; apply is_bytes_app in Ir; apply Ir).
  rewrite rune_step_runes. cbn [json_chars] in *. destruct (b0 <? 128) eqn:C.
  { rewrite app_length in G. pose proof (json_ascii_length b0). rewrite <- app_assoc, gchars_ascii, IH by (assumption || lia). unfold rune_step. rewrite C. cbn [skipn flat_map emit]. unfold utf8. rewrite C. reflexivity. }
  destruct (rune_step b0 r) as [c n] eqn:R. apply rune_step_ok in R; [|lia]. destruct ((c =? 65533) && Nat.eqb n 0) eqn:Bad.
  { assert (c = 65533 /\ n = 0%nat) as [-> ->] by lia. rewrite app_length in G. cbn [length] in G. rewrite <- app_assoc. cbn [app gchars]. change (92 =? 34) with false. change (92 =? 92) with true. change (117 =? 117) with true. cbv iota. unfold u4. change (hex_val 102) with (Some 15). change (hex_val 100) with (Some 13). cbv iota zeta.
    change ((55296 <=? 15 * 4096 + 15 * 256 + 15 * 16 + 13) && (15 * 4096 + 15 * 256 + 15 * 16 + 13 <? 57344)) with false. cbv iota. cbn [skipn]. rewrite IH by (assumption || lia). reflexivity. }
  destruct R as [[-> ->]|(U & F & Ln & Sc & G8)]; [discriminate|]. assert (Lk : (length (skipn n r) <= f)%nat) by (rewrite skipn_length; lia).
  destruct ((c =? 8232) || (c =? 8233)) eqn:LS; rewrite app_length in G; cbn [length] in G.
  { rewrite <- app_assoc. cbn [app gchars]. change (92 =? 34) with false. change (92 =? 92) with true. change (117 =? 117) with true. cbv iota. unfold u4. change (hex_val 50) with (Some 2). change (hex_val 48) with (Some 0). cbv iota.
    assert (E : hex_val (hex_digit (Z.land c 15)) = Some (c - 8224)) by (assert (c = 8232 \/ c = 8233) as [-> | ->] by lia; reflexivity). rewrite E. cbv iota zeta. replace (2 * 4096 + 0 * 256 + 2 * 16 + (c - 8224)) with c by lia. replace (_ && _) with false by lia.
    rewrite IH by (apply Isk || exact Lk || lia). rewrite utf8_rune_scalar by exact Sc. reflexivity. }
  destruct (rune_step_utf8 c (json_chars f (skipn n r) ++ 34 :: rest) Sc) as (b1 & r1 & m & U1 & Lm & R1). rewrite U1 in U. assert (E1 : b0 = b1) by congruence. assert (E2 : firstn n r = r1) by congruence. subst b1 r1.
  rewrite <- app_assoc. cbn [app gchars]. replace (b0 =? 34) with false by lia. replace (b0 =? 92) with false by lia. replace (b0 <? 32) with false by lia. rewrite R1. rewrite <- Lm, skipn_app, skipn_all, Nat.sub_diag. cbn [skipn app].
  rewrite IH by (apply Isk || exact Lk || lia). rewrite utf8_rune_scalar by exact Sc. reflexivity.
Qed.
(** ** Values *)
Definition ends (rest : list Z) : Prop := match rest with [] => True | x :: _ => x = 44 \/ x = 93 \/ x = 125 end.
Definition gr (e : list Z) (v : jval) : Prop :=
  (exists x r, e = x :: r /\ is_ws x = false /\ x <> 93 /\ x <> 125) /\
  forall f rest, ends rest -> (2 * length e + 1 <= f)%nat -> gread f (e ++ rest) = Some (v, rest).
Lemma gr_text e v : gr e v -> unjson e = Some v.
Proof. intros (_ & G). unfold unjson. specialize (G (2 * length e + 2)%nat [] I ltac:(lia)). rewrite app_nil_r in G. rewrite G. reflexivity. Qed.
Lemma ends_ws rest : ends rest -> skip_ws rest = rest.
Proof. destruct rest as [|x r]; [reflexivity|]. cbn. intros [-> | [-> | ->]]; reflexivity. Qed.
Lemma gr_string s : is_bytes s -> gr (go_string s) (VStr (clean s)).
Proof.
  intros I. split; [eexists _, _; split; [reflexivity|split; [reflexivity|lia]]|]. intros f rest En L. destruct f as [|f]; [lia|]. unfold go_string. rewrite <- !app_assoc. cbn [app gread skip_ws]. change (is_ws 34) with false. cbv iota.
  change (34 =? 34) with true. cbv iota. rewrite gchars_read; [reflexivity|exact I|lia|]. rewrite app_length. cbn [length]. lia.
Qed.
Lemma skip_head x r : is_ws x = false -> skip_ws (x :: r) = x :: r.
Proof. intros H. cbn [skip_ws]. rewrite H. reflexivity. Qed.
Lemma gelems_join es : forall vs, Forall2 gr es vs -> es <> [] -> forall f rest, (2 * length (go_join es) + 2 <= f)%nat -> gelems f (go_join es ++ 93 :: rest) = Some (vs, rest).
Proof.
  induction es as [|e es IH]; intros vs F N f rest L; [contradiction|]. inversion F as [|? v ? vs' (_ & J) F']; subst. destruct f as [|f]; [lia|]. destruct es as [|e' es].
  - inversion F'; subst. cbn [gelems go_join] in *. rewrite J by (lia || (right; left; reflexivity)). reflexivity.
  - cbn [gelems]. change (go_join (e :: e' :: es)) with (e ++ [44] ++ go_join (e' :: es)) in *. rewrite !app_length in L. cbn [length] in L. rewrite <- !app_assoc. rewrite J by (lia || (left; reflexivity)). cbn [app skip_ws]. change (is_ws 44) with false. cbv iota. change (44 =? 93) with false. change (44 =? 44) with true. cbv iota.
    rewrite (IH vs' F' ltac:(discriminate) f rest) by lia. reflexivity.
Qed.
Lemma gr_array es vs : Forall2 gr es vs -> gr (go_array (Some es)) (VArr vs).
Proof.
  intros F. split; [eexists _, _; split; [reflexivity|split; [reflexivity|lia]]|]. intros f rest En L. destruct f as [|f]; [lia|]. destruct es as [|e es].
  - inversion F; subst. reflexivity.
  - unfold go_array in *. rewrite !app_length in L. cbn [length] in L. rewrite <- !app_assoc. cbn [app gread]. rewrite skip_head by reflexivity. change (91 =? 34) with false. change (91 =? 91) with true. cbv iota.
    pose proof (gelems_join _ _ F ltac:(discriminate) f rest ltac:(lia)) as G. inversion F as [|? v ? ? ((x & r & E & W & Nx & _) & _) F'] ; subst e.
    assert (X : exists r', go_join ((x :: r) :: es) ++ 93 :: rest = x :: r') by (destruct es; eexists; cbn; reflexivity). destruct X as (r' & X). rewrite X in *. rewrite skip_head by exact W. replace (x =? 93) with false by lia. rewrite G. congruence.
Qed.
Lemma gchars_plain k s : plain k = true -> forall g, (length k < g)%nat -> gchars g (k ++ 34 :: s) = Some (k, s).
Proof.
  induction k as [|c k IH]; intros P g G; (destruct g as [|g]; [lia|]); [reflexivity|]. cbn [plain forallb] in P. apply andb_true_iff in P as [Pc P]. cbn [app gchars length] in *. replace (c =? 34) with false by lia. replace (c =? 92) with false by lia. replace (c <? 32) with false by lia.
  unfold rune_step. replace (c <? 128) with true by lia. cbn [skipn]. rewrite IH by (exact P || lia). unfold utf8_rune. replace ((0 <=? c) && (c <? 128)) with true by lia. reflexivity.
Qed.
Definition member_ok (m : list Z * list Z) (j : list Z * jval) : Prop := fst m = fst j /\ plain (fst m) = true /\ gr (snd m) (snd j).
Definition member_text (m : list Z * list Z) : list Z := let '(k, e) := m in [34] ++ k ++ [34; 58] ++ e.
Lemma gmembers_join ms : forall js, Forall2 member_ok ms js -> ms <> [] -> forall f rest, (2 * length (go_join (map member_text ms)) + 2 <= f)%nat ->
  gmembers f (go_join (map member_text ms) ++ 125 :: rest) = Some (js, rest).
Proof.
  induction ms as [|[k e] ms IH]; intros js F N f rest L; [contradiction|]. inversion F as [|? [k' j] ? js' Hm F']; subst. unfold member_ok in Hm. cbn [fst snd] in Hm. destruct Hm as (<- & P & (x & r & E & W & _) & J). destruct f as [|f]; [lia|].
  assert (Step : forall tl, ends tl -> (2 * length (member_text (k, e)) + 2 <= S f)%nat -> gmembers (S f) (member_text (k, e) ++ tl) =
    match tl with x :: r => if x =? 125 then Some ([(k, j)], r) else if x =? 44 then match gmembers f r with Some (l, rest) => Some ((k, j) :: l, rest) | None => None end else None | [] => None end).
  { intros tl En L'. unfold member_text in *. rewrite !app_length in L'. cbn [length] in L'. rewrite <- !app_assoc. cbn [app gmembers]. rewrite skip_head by reflexivity. change (negb (34 =? 34)) with false. cbv iota. rewrite gchars_plain; [|exact P|rewrite app_length; cbn [length]; lia].
    rewrite skip_head by reflexivity. change (negb (58 =? 58)) with false. cbv iota. rewrite J by (exact En || lia). rewrite ends_ws by exact En. reflexivity. }
  destruct ms as [|m ms].
  - inversion F'; subst. cbn [map go_join] in *. rewrite Step by (lia || (right; right; reflexivity)). reflexivity.
  - cbn [map] in *. change (go_join (member_text (k, e) :: member_text m :: map member_text ms)) with (member_text (k, e) ++ [44] ++ go_join (member_text m :: map member_text ms)) in *. rewrite !app_length in L. cbn [length] in L. rewrite <- !app_assoc. rewrite Step by (lia || (left; reflexivity)).
    cbn [app]. change (44 =? 125) with false. change (44 =? 44) with true. cbv iota. rewrite (IH js' F' ltac:(discriminate) f rest) by lia. reflexivity.
Qed.
Lemma gr_object ms js : Forall2 member_ok ms js -> gr (go_object ms) (VObj js).
Proof.
  intros F. split; [eexists _, _; split; [reflexivity|split; [reflexivity|lia]]|]. intros f rest En L. destruct f as [|f]; [lia|]. destruct ms as [|[k e] ms].
  - inversion F; subst. reflexivity.
  - unfold go_object in *. change (map (fun '(k, e) => [34] ++ k ++ [34; 58] ++ e) ((k, e) :: ms)) with (map member_text ((k, e) :: ms)) in *. rewrite !app_length in L. cbn [length] in L. pose proof (gmembers_join _ _ F ltac:(discriminate) f rest ltac:(lia)) as G. remember (go_join (map member_text ((k, e) :: ms))) as g eqn:Eg.
    rewrite <- !app_assoc. cbn [app gread]. rewrite skip_head by reflexivity. change (123 =? 34) with false. change (123 =? 91) with false. change (123 =? 123) with true. cbv iota.
    assert (X : exists r', g ++ 125 :: rest = 34 :: r') by (subst g; destruct ms; eexists; cbn; reflexivity). destruct X as (r' & X). rewrite X in *. rewrite skip_head by reflexivity. change (34 =? 125) with false. cbv iota. rewrite G. reflexivity.
Qed.
(** ** Numbers *)
Lemma span_digits_app ds : forall rest, Forall (fun d => 48 <= d <= 57) ds -> ends rest -> span_digits (ds ++ rest) = (ds, rest).
Proof.
  induction ds as [|d ds IH]; intros rest F En.
  - cbn [app]. destruct rest as [|x r]; [reflexivity|]. cbn in *. unfold is_digit. replace ((48 <=? x) && (x <=? 57)) with false by lia. reflexivity.
  - inversion F; subst. cbn [app span_digits]. unfold is_digit at 1. replace ((48 <=? d) && (d <=? 57)) with true by lia. rewrite IH by assumption. reflexivity.
Qed.
Lemma gint_app ds rest : ds <> [] -> Forall (fun d => 48 <= d <= 57) ds -> (hd 0 ds = 48 -> ds = [48]) -> ends rest -> gint (ds ++ rest) = Some (ds, rest).
Proof.
  intros N F H En. destruct ds as [|d ds]; [contradiction|]. cbn [hd] in H. cbn [app gint]. destruct (d =? 48) eqn:E.
  - assert (Q : d = 48) by lia. specialize (H Q). injection H as -> ->. reflexivity.
  - inversion F; subst. unfold is_digit. replace ((48 <=? d) && (d <=? 57)) with true by lia. change (d :: ds ++ rest) with ((d :: ds) ++ rest). rewrite span_digits_app by assumption. reflexivity.
Qed.
Lemma frac_exp_none rest : ends rest -> gfrac rest = Some ([], rest) /\ gexp rest = Some ([], rest).
Proof. destruct rest as [|x r]; [split; reflexivity|]. cbn. intros [-> | [-> | ->]]; split; reflexivity. Qed.
Lemma gr_number n : gr (format_int n) (VNum (format_int n)).
Proof.
  destruct (format_int_ok n) as (ds & N & F & H & C). set (t := format_int n) in *.
  assert (Hd : exists x r, t = x :: r /\ (x = 45 \/ 48 <= x <= 57)) by (destruct C as [(_ & -> & _)|(_ & -> & _)]; [destruct ds as [|d ds]; [contradiction|]; inversion F; subst; eexists _, _; split; [reflexivity|right; lia]|eexists _, _; split; [reflexivity|left; reflexivity]]).
  destruct Hd as (x & r & Et & Hx). split; [exists x, r; split; [exact Et|]; unfold is_ws; split; [lia|lia]|]. intros f rest En L. destruct f as [|f]; [lia|].
  assert (G : gnum (t ++ rest) = Some (t, rest)).
  { destruct (frac_exp_none rest En) as [Fr Ex]. unfold gnum. destruct C as [(P & E & _)|(P & E & _)]; rewrite E.
    - destruct ds as [|d ds]; [contradiction|]. cbn [app]. replace (d =? 45) with false by (inversion F; lia). change (d :: ds ++ rest) with ((d :: ds) ++ rest). rewrite gint_app by assumption. rewrite Fr, Ex. rewrite !app_nil_r. reflexivity.
    - cbn [app]. change (45 =? 45) with true. cbv iota. rewrite gint_app by assumption. rewrite Fr, Ex. rewrite !app_nil_r. reflexivity. }
  cbn [gread]. rewrite Et in *. cbn [app] in *. rewrite skip_head by (unfold is_ws; lia). replace (x =? 34) with false by lia. replace (x =? 91) with false by lia. replace (x =? 123) with false by lia.
  assert (Nb : forall k t y, 57 < y -> beq (firstn (S k) (x :: r ++ rest)) (y :: t) = false) by (intros k u y Hy; cbn [firstn]; cbn [beq]; replace (x =? y) with false by lia; reflexivity).
  change (str "null") with (110 :: str "ull"). change (str "true") with (116 :: str "rue"). change (str "false") with (102 :: str "alse").
  rewrite (Nb 3%nat (str "ull") 110), (Nb 3%nat (str "rue") 116), (Nb 4%nat (str "alse") 102) by lia. rewrite G. reflexivity.
Qed.
Lemma digits_forallb ds : Forall (fun d => 48 <= d <= 57) ds -> forallb is_digit ds = true.
Proof. intros F. apply forallb_forall. rewrite Forall_forall in F. intros d I. specialize (F d I). cbn beta in F. unfold is_digit. lia. Qed.
Lemma parse_uint_format bits n : 0 <= n < 2 ^ bits -> parse_uint bits (format_int n) = Some n.
Proof.
  intros H. destruct (format_int_ok n) as (ds & N & F & _ & [(P & E & D)|(P & _)]); [|lia]. unfold parse_uint, dec_value. rewrite E. destruct ds as [|d es] eqn:Ed; [contradiction|]. rewrite <- Ed in *. rewrite digits_forallb by exact F. unfold digits_num in D. rewrite D. replace (n <? 2 ^ bits) with true by lia. reflexivity.
Qed.
Lemma parse_int_format bits n : - 2 ^ (bits - 1) <= n < 2 ^ (bits - 1) -> parse_int bits (format_int n) = Some n.
Proof.
  intros H. destruct (format_int_ok n) as (ds & N & F & _ & [(P & E & D)|(P & E & D)]); unfold parse_int; rewrite E; unfold digits_num in D.
  - destruct ds as [|d es] eqn:Ed; [contradiction|]. replace (d =? 45) with false by (inversion F; lia). unfold dec_value. rewrite <- Ed in *. rewrite digits_forallb by exact F. rewrite D. replace (n <? 2 ^ (bits - 1)) with true by lia. reflexivity.
  - change (45 =? 45) with true. cbv iota. unfold dec_value. rewrite digits_forallb by exact F. destruct ds as [|d ds]; [contradiction|]. rewrite D. replace (- n <=? 2 ^ (bits - 1)) with true by lia. f_equal. lia.
Qed.
(** Plain text survives. *)
Lemma clean_ascii s : Forall (fun c => 0 <= c < 128) s -> clean s = s.
Proof. intros F. apply clean_valid, ascii_valid, F. Qed.

(** ** Members in order: the last one counts *)
(** The value of the last member with a name (without case) that is not null. *)
Fixpoint last_value (name : list Z) (ms : list (list Z * jval)) : option jval :=
  match ms with
  | [] => None
  | (k, v) :: r =>
      match last_value name r with
      | Some x => Some x
      | None => if beq (fold_name k) (fold_name name) then match v with VNull => None | _ => Some v end else None
      end
  end.
Section Last.
Variables (S A : Type) (fs : list (list Z * (jval -> S -> option S))) (P : S -> A) (name : list Z) (conv : jval -> A -> option A).
Hypothesis Here : forall k g v s s', find_field S k fs = Some g -> beq (fold_name k) (fold_name name) = true -> g v s = Some s' -> conv v (P s) = Some (P s').
Hypothesis Away : forall k g v s s', find_field S k fs = Some g -> beq (fold_name k) (fold_name name) = false -> g v s = Some s' -> P s' = P s.
Hypothesis Known : forall k, beq (fold_name k) (fold_name name) = true -> find_field S k fs <> None.
Hypothesis Null : forall x, conv VNull x = Some x.
Hypothesis Over : forall v x y, v <> VNull -> conv v x = conv v y.
Lemma assign_last ms : forall s t, assign S fs ms s = Some t ->
  match last_value name ms with None => P t = P s | Some v => forall x, conv v x = Some (P t) end.
Proof.
  induction ms as [|[k v] r IH]; intros s t; cbn [assign last_value]; [intros E; congruence|]. destruct (find_field S k fs) as [g|] eqn:F.
  - destruct (g v s) as [s'|] eqn:G; [|discriminate]. intros E. specialize (IH _ _ E). destruct (last_value name r) as [w|]; [exact IH|]. destruct (beq (fold_name k) (fold_name name)) eqn:B.
    + pose proof (Here _ _ _ _ _ F B G) as C. destruct v; try (intros x; rewrite (Over _ x (P s)) by discriminate; congruence). rewrite Null in C. congruence.
    + rewrite IH. exact (Away _ _ _ _ _ F B G).
  - intros E. specialize (IH _ _ E). destruct (last_value name r) as [w|]; [exact IH|]. destruct (beq (fold_name k) (fold_name name)) eqn:B; [exfalso; exact (Known k B F)|exact IH].
Qed.
End Last.
Lemma find_field_in S k (fs : list (list Z * (jval -> S -> option S))) g : find_field S k fs = Some g -> exists n, In (n, g) fs /\ fold_name k = fold_name n.
Proof.
  induction fs as [|[n h] fs IH]; cbn [find_field]; [discriminate|]. destruct (beq (fold_name k) (fold_name n)) eqn:B.
  - intros E. assert (h = g) by congruence. subst h. exists n. split; [left; reflexivity|apply beq_eq, B].
  - intros E. destruct (IH E) as (m & I & F). exists m. split; [right; exact I|exact F].
Qed.
Lemma find_field_none S k (fs : list (list Z * (jval -> S -> option S))) : find_field S k fs = None -> forall n g, In (n, g) fs -> fold_name k <> fold_name n.
Proof.
  induction fs as [|[n h] fs IH]; cbn [find_field]; [intros _ n g []|]. destruct (beq (fold_name k) (fold_name n)) eqn:B; [discriminate|]. intros E m g [I|I]; [|exact (IH E m g I)].
  apply (f_equal fst) in I. cbn [fst] in I. subst m. intros C. rewrite C in B. rewrite (proj2 (beq_eq _ _) eq_refl) in B. discriminate.
Qed.
Lemma utf8_bytes c : scalar c -> is_bytes (utf8 c).
Proof.
  intros H. unfold scalar in H. unfold utf8. destruct (c <? 128) eqn:A; [repeat constructor; unfold is_byte; lia|]. destruct (c <? 2048) eqn:B; [repeat constructor; unfold is_byte; Z.div_mod_to_equations; lia|].
  destruct (c <? 65536) eqn:C; repeat constructor; unfold is_byte; Z.div_mod_to_equations; lia.
Qed.
Lemma valid_bytes s : valid_text s -> is_bytes s.
Proof. intros (cs & F & ->). induction F as [|c cs H F IH]; cbn [flat_map]; [constructor|]. apply is_bytes_app. split; [apply utf8_bytes, H|exact IH]. Qed.
Lemma hex_text_ascii l : is_bytes l -> Forall (fun c => 0 <= c < 128) (hex_encode l).
Proof.
  intros B. unfold hex_encode. induction B as [|b l Hb B IH]; cbn [flat_map app]; [constructor|]. unfold is_byte in Hb. unfold hex_digit.
  constructor; [|constructor; [|exact IH]]; destruct (_ <? 10) eqn:C; Z.div_mod_to_equations; lia.
Qed.
Lemma hex_decode_ascii s : forall l, hex_decode s = Ok l -> Forall (fun c => 0 <= c < 128) s.
Proof.
  assert (V : forall c x, hex_val c = Some x -> 0 <= c < 128) by (intros c x; unfold hex_val; repeat match goal with |- context [if ?b then _ else _] => destruct b eqn:? end; try discriminate; lia).
  induction s as [|a|a b s IH] using pair_ind; intros l; cbn [hex_decode]; [constructor|discriminate|].
  destruct (hex_val a) eqn:A; [|discriminate]. destruct (hex_val b) eqn:B; [|discriminate]. destruct (hex_decode s) as [t| |]; cbn [bind]; try discriminate. intros _.
  constructor; [exact (V _ _ A)|]. constructor; [exact (V _ _ B)|]. exact (IH _ eq_refl).
Qed.
Lemma gr_null : gr (str "null") VNull.
Proof. change (str "null") with [110; 117; 108; 108]. split; [eexists _, _; split; [reflexivity|split; [reflexivity|lia]]|]. intros f rest En L. destruct f as [|f]; [cbn in L; lia|]. reflexivity. Qed.
Ltac find_it := cbn [find_field]; repeat match goal with |- context [beq (fold_name ?a) (fold_name ?b)] => let x := eval vm_compute in (beq (fold_name a) (fold_name b)) in change (beq (fold_name a) (fold_name b)) with x; cbv iota end; reflexivity.
