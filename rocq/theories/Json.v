(** Specification of JSON text (RFC 8259, without optional white space and numbers) and of base 64, and the proofs that Go's
    writers (GoJson.v) follow it. *)
From Coq Require Import String ZArith List Bool Lia ZifyBool ZifyNat.
From Verif Require Import Go GoFacts GoJson.
Import ListNotations.
Open Scope Z_scope.
Ltac Zify.zify_post_hook ::= idtac.

(** ** Specification *)
(** UTF-8. *)
Definition utf8 (c : Z) : list Z :=
  if c <? 128 then [c]
  else if c <? 2048 then [192 + c / 64; 128 + c mod 64]
  else if c <? 65536 then [224 + c / 4096; 128 + c / 64 mod 64; 128 + c mod 64]
  else [240 + c / 262144; 128 + c / 4096 mod 64; 128 + c / 64 mod 64; 128 + c mod 64].
Definition scalar (c : Z) : Prop := 0 <= c < 55296 \/ 57344 <= c < 1114112.
Definition valid_text (s : list Z) : Prop := exists cs, Forall scalar cs /\ s = flat_map utf8 cs.
(** The text with every byte that is not part of valid UTF-8 replaced by U+FFFD. *)
Definition clean (s : list Z) : list Z := flat_map utf8 (runes s).
(** Values. *)
Inductive json := JNull | JStr (s : list Z) | JArr (l : list json) | JObj (l : list (list Z * json)).
Definition unescape (e : Z) : option Z :=
  if (e =? 34) || (e =? 92) || (e =? 47) then Some e
  else if e =? 98 then Some 8 else if e =? 102 then Some 12 else if e =? 110 then Some 10 else if e =? 114 then Some 13 else if e =? 116 then Some 9
  else None.
(** The rest of a string, after its opening quote. Escaped surrogates are not read. *)
Fixpoint jchars (s : list Z) : option (list Z * list Z) :=
  match s with
  | [] => None
  | x :: r =>
      if x =? 34 then Some ([], r)
      else if x =? 92 then
        match r with
        | [] => None
        | e :: r1 =>
            if e =? 117 then
              match r1 with
              | a :: b :: c :: d :: r2 =>
                  match hex_val a, hex_val b, hex_val c, hex_val d with
                  | Some a, Some b, Some c, Some d =>
                      let u := a * 4096 + b * 256 + c * 16 + d in
                      if (55296 <=? u) && (u <? 57344) then None
                      else match jchars r2 with Some (t, rest) => Some (utf8 u ++ t, rest) | None => None end
                  | _, _, _, _ => None
                  end
              | _ => None
              end
            else match unescape e, jchars r1 with Some v, Some (t, rest) => Some (v :: t, rest) | _, _ => None end
        end
      else if x <? 32 then None
      else match jchars r with Some (t, rest) => Some (x :: t, rest) | None => None end
  end.
(** One value at the start of a text, and the rest. *)
Fixpoint jread (f : nat) (s : list Z) {struct f} : option (json * list Z) :=
  match f with
  | O => None
  | S f' =>
      match s with
      | [] => None
      | x :: r =>
          if x =? 34 then match jchars r with Some (t, rest) => Some (JStr t, rest) | None => None end
          else if x =? 91 then
            match r with
            | y :: r' => if y =? 93 then Some (JArr [], r') else match jelems f' r with Some (l, rest) => Some (JArr l, rest) | None => None end
            | [] => None
            end
          else if x =? 123 then
            match r with
            | y :: r' => if y =? 125 then Some (JObj [], r') else match jmembers f' r with Some (l, rest) => Some (JObj l, rest) | None => None end
            | [] => None
            end
          else if beq (firstn 4 s) (str "null") then Some (JNull, skipn 4 s) else None
      end
  end
with jelems (f : nat) (s : list Z) {struct f} : option (list json * list Z) :=
  match f with
  | O => None
  | S f' =>
      match jread f' s with
      | Some (v, x :: r) =>
          if x =? 93 then Some ([v], r)
          else if x =? 44 then match jelems f' r with Some (l, rest) => Some (v :: l, rest) | None => None end else None
      | _ => None
      end
  end
with jmembers (f : nat) (s : list Z) {struct f} : option (list (list Z * json) * list Z) :=
  match f with
  | O => None
  | S f' =>
      match s with
      | q :: r0 =>
          if negb (q =? 34) then None else
          match jchars r0 with
          | Some (k, c :: r1) =>
              if negb (c =? 58) then None else
              match jread f' r1 with
              | Some (v, x :: r) =>
                  if x =? 125 then Some ([(k, v)], r)
                  else if x =? 44 then match jmembers f' r with Some (l, rest) => Some ((k, v) :: l, rest) | None => None end else None
              | _ => None
              end
          | _ => None
          end
      | [] => None
      end
  end.
(** The text is this value and nothing else. The fuel bounds the work of the reader; any sufficient amount will do. *)
Definition json_text (text : list Z) (j : json) : Prop := exists f0, forall f, (f0 <= f)%nat -> jread f text = Some (j, []).
Lemma json_text_unique text j k : json_text text j -> json_text text k -> j = k.
Proof. intros (f & F) (g & G). specialize (F (Nat.max f g) ltac:(lia)). specialize (G (Nat.max f g) ltac:(lia)). congruence. Qed.

(** Base 64: four characters give three bytes, one less for every padding character at the end. *)
Definition b64_value (c v : Z) : Prop := 0 <= v < 64 /\ nth_error (str "ABCDEFGHIJKLMNOPQRSTUVWXYZabcdefghijklmnopqrstuvwxyz0123456789+/") (Z.to_nat v) = Some c.
Inductive base64_of : list Z -> list Z -> Prop :=
| b64_nil : base64_of [] []
| b64_full a b c d w x y z p q r s t : b64_value a w -> b64_value b x -> b64_value c y -> b64_value d z ->
    w * 262144 + x * 4096 + y * 64 + z = p * 65536 + q * 256 + r -> base64_of s t -> base64_of (a :: b :: c :: d :: s) (p :: q :: r :: t)
| b64_two a b c w x y p q : b64_value a w -> b64_value b x -> b64_value c y -> w * 262144 + x * 4096 + y * 64 = p * 65536 + q * 256 -> base64_of [a; b; c; 61] [p; q]
| b64_one a b w x p : b64_value a w -> b64_value b x -> w * 262144 + x * 4096 = p * 65536 -> base64_of [a; b; 61; 61] [p].

(** ** Strings *)
Lemma rune_step_runes f b0 r : runes_fuel (S f) (b0 :: r) = let '(c, n) := rune_step b0 r in c :: runes_fuel f (skipn n r).
Proof.
  cbn [runes_fuel]. unfold rune_step. destruct (b0 <? 128); [reflexivity|]. destruct ((194 <=? b0) && (b0 <=? 223)).
  { destruct r as [|b1 r]; [reflexivity|]. destruct (cont b1); reflexivity. }
  destruct ((224 <=? b0) && (b0 <=? 239)).
  { destruct r as [|b1 [|b2 r]]; try reflexivity. cbv zeta. destruct (_ && _ && _); reflexivity. }
  destruct ((240 <=? b0) && (b0 <=? 244)); [|reflexivity].
  destruct r as [|b1 [|b2 [|b3 r]]]; try reflexivity. cbv zeta. destruct (_ && _ && _ && _); reflexivity.
Qed.
Lemma split64 q d : 0 <= d < 64 -> (q * 64 + d) / 64 = q /\ (q * 64 + d) mod 64 = d.
Proof. intros H. split; [rewrite Z.add_comm, Z.div_add by lia; rewrite Z.div_small by lia; lia|rewrite Z.add_comm, Z.mod_add by lia; apply Z.mod_small; lia]. Qed.
Lemma rune_step_ok b0 r c n : 128 <= b0 < 256 -> rune_step b0 r = (c, n) -> (c = 65533 /\ n = 0%nat) \/
  (b0 :: firstn n r = utf8 c /\ Forall (fun b => 128 <= b) (firstn n r) /\ (n <= length r)%nat /\ scalar c /\ 128 <= c).
Proof.
  intros H. unfold rune_step. replace (b0 <? 128) with false by lia. destruct ((194 <=? b0) && (b0 <=? 223)) eqn:C1.
  { destruct r as [|b1 r]; [intros E; injection E as <- <-; auto|]. unfold cont. destruct ((128 <=? b1) && (b1 <=? 191)) eqn:D1; intros E; injection E as <- <-; [right|left; auto].
    destruct (split64 (b0 - 192) (b1 - 128) ltac:(lia)) as [S1 S2]. split; [|split; [repeat constructor; lia|split; [cbn; lia|unfold scalar; lia]]].
    unfold utf8. replace (_ <? 128) with false by lia. replace (_ <? 2048) with true by lia. rewrite S1, S2. cbn [firstn]. f_equal; [lia|]. f_equal. lia. }
  destruct ((224 <=? b0) && (b0 <=? 239)) eqn:C2.
  { destruct r as [|b1 [|b2 r]]; try (intros E; injection E as <- <-; auto; fail). cbv zeta. unfold cont. destruct (_ && _ && _) eqn:D1; intros E; injection E as <- <-; [right|left; auto].
    assert (R1 : 128 <= b1 <= 191) by (destruct (b0 =? 224), (b0 =? 237); lia). assert (R2 : 128 <= b2 <= 191) by lia.
    set (c := (b0 - 224) * 4096 + (b1 - 128) * 64 + (b2 - 128)). assert (Ec : c = ((b0 - 224) * 64 + (b1 - 128)) * 64 + (b2 - 128)) by (unfold c; lia).
    destruct (split64 ((b0 - 224) * 64 + (b1 - 128)) (b2 - 128) ltac:(lia)) as [S1 S2]. rewrite <- Ec in S1, S2. destruct (split64 (b0 - 224) (b1 - 128) ltac:(lia)) as [S3 S4].
    assert (S5 : c / 4096 = b0 - 224) by (change 4096 with (64 * 64); rewrite <- Z.div_div, S1 by lia; exact S3).
    assert (R : 2048 <= c < 65536 /\ (c < 55296 \/ 57344 <= c)) by (unfold c; destruct (b0 =? 224) eqn:?, (b0 =? 237) eqn:?; lia). clearbody c.
    split; [|split; [repeat constructor; lia|split; [cbn; lia|unfold scalar; lia]]]. unfold utf8. replace (c <? 128) with false by lia. replace (c <? 2048) with false by lia. replace (c <? 65536) with true by lia.
    rewrite S5, S1, S4, S2. cbn [firstn]. f_equal; [lia|]. f_equal; [lia|]. f_equal. lia. }
  destruct ((240 <=? b0) && (b0 <=? 244)) eqn:C3; [|intros E; injection E as <- <-; auto].
  destruct r as [|b1 [|b2 [|b3 r]]]; try (intros E; injection E as <- <-; auto; fail). cbv zeta. unfold cont. destruct (_ && _ && _ && _) eqn:D1; intros E; injection E as <- <-; [right|left; auto].
  assert (R1 : 128 <= b1 <= 191) by (destruct (b0 =? 240), (b0 =? 244); lia). assert (R2 : 128 <= b2 <= 191) by lia. assert (R3 : 128 <= b3 <= 191) by lia.
  set (c := (b0 - 240) * 262144 + (b1 - 128) * 4096 + (b2 - 128) * 64 + (b3 - 128)). assert (Ec : c = (((b0 - 240) * 64 + (b1 - 128)) * 64 + (b2 - 128)) * 64 + (b3 - 128)) by (unfold c; lia).
  destruct (split64 (((b0 - 240) * 64 + (b1 - 128)) * 64 + (b2 - 128)) (b3 - 128) ltac:(lia)) as [S1 S2]. rewrite <- Ec in S1, S2. destruct (split64 ((b0 - 240) * 64 + (b1 - 128)) (b2 - 128) ltac:(lia)) as [S3 S4]. destruct (split64 (b0 - 240) (b1 - 128) ltac:(lia)) as [S6 S7].
  assert (S5 : c / 4096 = (b0 - 240) * 64 + (b1 - 128)) by (change 4096 with (64 * 64); rewrite <- Z.div_div, S1 by lia; exact S3).
  assert (S8 : c / 262144 = b0 - 240) by (change 262144 with (4096 * 64); rewrite <- Z.div_div, S5 by lia; exact S6).
  assert (R : 65536 <= c < 1114112) by (unfold c; destruct (b0 =? 240) eqn:?, (b0 =? 244) eqn:?; lia). clearbody c.
  split; [|split; [repeat constructor; lia|split; [cbn; lia|unfold scalar; lia]]]. unfold utf8. replace (c <? 128) with false by lia. replace (c <? 2048) with false by lia. replace (c <? 65536) with false by lia.
  rewrite S8, S5, S7, S1, S4, S2. cbn [firstn]. f_equal; [lia|]. f_equal; [lia|]. f_equal; [lia|]. f_equal. lia.
Qed.
Lemma jchars_raw xs : Forall (fun b => 128 <= b) xs -> forall s, jchars (xs ++ s) = match jchars s with Some (t, rest) => Some (xs ++ t, rest) | None => None end.
Proof.
  induction 1 as [|x xs H F IH]; intros s; [cbn [app]; destruct (jchars s) as [[? ?]|]; reflexivity|]. cbn [app jchars]. replace (x =? 34) with false by lia. replace (x =? 92) with false by lia. replace (x <? 32) with false by lia.
  rewrite IH. destruct (jchars s) as [[? ?]|]; reflexivity.
Qed.
Lemma hex_val_digit v : 0 <= v < 16 -> hex_val (hex_digit v) = Some v.
Proof. intros H. unfold hex_val, hex_digit. destruct (v <? 10) eqn:C; [replace (_ && _) with true by lia; f_equal; lia|]. replace (_ && _) with false by lia. replace (_ && _) with true by lia. f_equal. lia. Qed.
Lemma jchars_ascii b s : 0 <= b < 128 -> jchars (json_ascii b ++ s) = match jchars s with Some (t, rest) => Some (b :: t, rest) | None => None end.
Proof.
  intros H. unfold json_ascii. destruct (json_safe b) eqn:S.
  { unfold json_safe in S. cbn [app jchars]. replace (b =? 34) with false by lia. replace (b =? 92) with false by lia. replace (b <? 32) with false by lia. reflexivity. }
  destruct ((b =? 92) || (b =? 34)) eqn:Q.
  { cbn [app jchars]. change (92 =? 34) with false. change (92 =? 92) with true. cbv iota. replace (b =? 117) with false by lia. unfold unescape. replace (_ || _ || _) with true by lia. destruct (jchars s) as [[? ?]|]; reflexivity. }
  destruct (b =? 10) eqn:Q10. { assert (b = 10) by lia. subst. cbn [app jchars]. destruct (jchars s) as [[? ?]|]; reflexivity. }
  destruct (b =? 13) eqn:Q13. { assert (b = 13) by lia. subst. cbn [app jchars]. destruct (jchars s) as [[? ?]|]; reflexivity. }
  destruct (b =? 9) eqn:Q9. { assert (b = 9) by lia. subst. cbn [app jchars]. destruct (jchars s) as [[? ?]|]; reflexivity. }
  cbn [app jchars]. change (92 =? 34) with false. change (92 =? 92) with true. change (117 =? 117) with true. cbv iota. change (hex_val 48) with (Some 0). cbv iota.
  pose proof (Z.div_mod b 16 ltac:(lia)) as D. pose proof (Z.mod_pos_bound b 16 ltac:(lia)) as M. rewrite !hex_val_digit by lia. cbv zeta. replace (0 * 4096 + 0 * 256 + b / 16 * 16 + b mod 16) with b by lia.
  replace (_ && _) with false by lia. unfold utf8. replace (b <? 128) with true by lia. reflexivity.
Qed.
Lemma json_chars_read f : forall s rest, is_bytes s -> (length s <= f)%nat -> jchars (json_chars f s ++ 34 :: rest) = Some (flat_map utf8 (runes_fuel f s), rest).
Proof.
  induction f as [|f IH]; intros s rest I L; [destruct s; [|cbn in L; lia]; reflexivity|]. destruct s as [|b0 r]; [reflexivity|]. cbn [length] in L. apply is_bytes_cons in I as [Ib Ir]. unfold is_byte in Ib.
  assert (Isk : forall n, is_bytes (skipn n r)) by (intros n; rewrite <- (firstn_skipn n r) in Ir; apply is_bytes_app in Ir; apply Ir).
  rewrite rune_step_runes. cbn [json_chars]. destruct (b0 <? 128) eqn:C.
  { rewrite <- app_assoc, jchars_ascii, IH by (assumption || lia). unfold rune_step. rewrite C. cbn [skipn flat_map]. unfold utf8. rewrite C. reflexivity. }
  destruct (rune_step b0 r) as [c n] eqn:R. apply rune_step_ok in R; [|lia]. destruct ((c =? 65533) && Nat.eqb n 0) eqn:Bad.
  { assert (c = 65533 /\ n = 0%nat) as [-> ->] by lia. rewrite <- app_assoc. cbn [app jchars]. change (92 =? 34) with false. change (92 =? 92) with true. change (117 =? 117) with true. cbv iota. change (hex_val 102) with (Some 15). change (hex_val 100) with (Some 13). cbv iota zeta.
    change ((55296 <=? 15 * 4096 + 15 * 256 + 15 * 16 + 13) && (15 * 4096 + 15 * 256 + 15 * 16 + 13 <? 57344)) with false. cbv iota. cbn [skipn]. rewrite IH by (assumption || lia). reflexivity. }
  destruct R as [[-> ->]|(U & F & Ln & Sc & G)]; [discriminate|]. assert (Lk : (length (skipn n r) <= f)%nat) by (rewrite skipn_length; lia).
  destruct ((c =? 8232) || (c =? 8233)) eqn:LS.
  { rewrite <- app_assoc. cbn [app jchars]. change (92 =? 34) with false. change (92 =? 92) with true. change (117 =? 117) with true. cbv iota. change (hex_val 50) with (Some 2). change (hex_val 48) with (Some 0). cbv iota.
    assert (E : hex_val (hex_digit (Z.land c 15)) = Some (c - 8224)) by (assert (c = 8232 \/ c = 8233) as [-> | ->] by lia; reflexivity). rewrite E. cbv iota zeta. replace (2 * 4096 + 0 * 256 + 2 * 16 + (c - 8224)) with c by lia. replace (_ && _) with false by lia.
    rewrite IH by (apply Isk || exact Lk). reflexivity. }
  rewrite <- app_assoc. rewrite jchars_raw by (constructor; [lia|exact F]). rewrite IH by (apply Isk || exact Lk). cbn [flat_map]. rewrite <- U. reflexivity.
Qed.
Lemma go_string_read s rest : is_bytes s -> exists body, go_string s ++ rest = 34 :: body /\ jchars body = Some (clean s, rest).
Proof.
  intros I. unfold go_string. eexists. rewrite <- !app_assoc. cbn [app]. split; [reflexivity|]. apply json_chars_read; [exact I|lia].
Qed.
Lemma json_chars_bytes f : forall s, is_bytes s -> is_bytes (json_chars f s).
Proof.
  induction f as [|f IH]; intros s I; [constructor|]. destruct s as [|b0 r]; [constructor|]. apply is_bytes_cons in I as [Ib Ir]. unfold is_byte in Ib.
  assert (Isk : forall n, is_bytes (skipn n r) /\ is_bytes (firstn n r)) by (intros n; rewrite <- (firstn_skipn n r) in Ir; apply is_bytes_app in Ir; split; apply Ir).
  assert (HD : forall v, 0 <= v < 16 -> is_byte (hex_digit v)) by (intros v Hv; unfold hex_digit, is_byte; destruct (v <? 10); lia).
  cbn [json_chars]. destruct (b0 <? 128) eqn:C.
  { apply is_bytes_app. split; [|apply IH, Ir]. unfold json_ascii. pose proof (Z.div_mod b0 16 ltac:(lia)). pose proof (Z.mod_pos_bound b0 16 ltac:(lia)).
    destruct (json_safe b0); [|destruct (_ || _); [|destruct (_ =? 10); [|destruct (_ =? 13); [|destruct (_ =? 9)]]]]; repeat (apply Forall_cons; [first [apply HD; lia|unfold is_byte; lia]|]); apply Forall_nil. }
  destruct (rune_step b0 r) as [c n]. destruct (_ && _); [|destruct (_ || _) eqn:LS].
  - apply is_bytes_app. split; [|apply IH, Ir]. repeat (apply Forall_cons; [unfold is_byte; lia|]). apply Forall_nil.
  - apply is_bytes_app. split; [|apply IH, Isk]. assert (E : Z.land c 15 = 8 \/ Z.land c 15 = 9) by (assert (c = 8232 \/ c = 8233) as [-> | ->] by lia; [left|right]; reflexivity). repeat (apply Forall_cons; [first [apply HD; lia|unfold is_byte; lia]|]). apply Forall_nil.
  - apply is_bytes_app. split; [|apply IH, Isk]. apply Forall_cons; [exact Ib|]. apply Isk.
Qed.
Lemma go_string_bytes s : is_bytes s -> is_bytes (go_string s).
Proof. intros I. unfold go_string. apply is_bytes_app. split; [apply Forall_cons; [unfold is_byte; lia|apply Forall_nil]|]. apply is_bytes_app. split; [apply json_chars_bytes, I|apply Forall_cons; [unfold is_byte; lia|apply Forall_nil]]. Qed.
Lemma go_join_bytes es : Forall is_bytes es -> is_bytes (go_join es).
Proof.
  induction 1 as [|e es H F IH]; [apply Forall_nil|]. destruct es as [|e' es]; [exact H|]. change (go_join (e :: e' :: es)) with (e ++ [44] ++ go_join (e' :: es)). apply is_bytes_app. split; [exact H|]. apply is_bytes_app. split; [apply Forall_cons; [unfold is_byte; lia|apply Forall_nil]|exact IH].
Qed.
Lemma go_array_bytes es : match es with None => True | Some es => Forall is_bytes es end -> is_bytes (go_array es).
Proof.
  destruct es as [es|]; intros H; unfold go_array; [|change (is_bytes [110; 117; 108; 108]); repeat (apply Forall_cons; [unfold is_byte; lia|]); apply Forall_nil]. apply is_bytes_app. split; [apply Forall_cons; [unfold is_byte; lia|apply Forall_nil]|]. apply is_bytes_app. split; [apply go_join_bytes, H|apply Forall_cons; [unfold is_byte; lia|apply Forall_nil]].
Qed.
Lemma go_object_bytes ms : Forall (fun m => is_bytes (fst m) /\ is_bytes (snd m)) ms -> is_bytes (go_object ms).
Proof.
  intros F. unfold go_object. apply is_bytes_app. split; [apply Forall_cons; [unfold is_byte; lia|apply Forall_nil]|]. apply is_bytes_app. split; [|apply Forall_cons; [unfold is_byte; lia|apply Forall_nil]].
  apply go_join_bytes. induction F as [|[k e] ms [Hk He] F IH]; cbn [map]; constructor; [|exact IH]. cbn [fst snd] in *. apply is_bytes_app. split; [apply Forall_cons; [unfold is_byte; lia|apply Forall_nil]|]. apply is_bytes_app. split; [exact Hk|]. apply is_bytes_app. split; [repeat (apply Forall_cons; [unfold is_byte; lia|]); apply Forall_nil|exact He].
Qed.
(** Valid text is left alone. *)
Lemma runes_more f : forall s g, (length s <= f)%nat -> (length s <= g)%nat -> runes_fuel f s = runes_fuel g s.
Proof.
  induction f as [|f IH]; intros s g L G; [destruct s; [destruct g; reflexivity|cbn in L; lia]|]. destruct g as [|g]; [destruct s; [reflexivity|cbn in G; lia]|].
  destruct s as [|b0 r]; [reflexivity|]. rewrite !rune_step_runes. destruct (rune_step b0 r) as [c n]. cbn [length] in *. f_equal. apply IH; rewrite skipn_length; lia.
Qed.
Lemma rune_step_utf8 c s : scalar c -> exists b0 r n, utf8 c = b0 :: r /\ length r = n /\ rune_step b0 (r ++ s) = (c, n).
Proof.
  intros Sc. unfold utf8. destruct (c <? 128) eqn:C1.
  { exists c, [], 0%nat. split; [reflexivity|]. split; [reflexivity|]. unfold rune_step. rewrite C1. reflexivity. }
  pose proof (Z.div_mod c 64 ltac:(lia)) as D0. pose proof (Z.mod_pos_bound c 64 ltac:(lia)) as M0.
  assert (Q0 : 0 <= c / 64) by (apply Z.div_pos; unfold scalar in Sc; lia).
  destruct (c <? 2048) eqn:C2.
  { do 3 eexists. split; [reflexivity|]. split; [reflexivity|]. assert (R : 2 <= c / 64 < 32) by (split; [apply Z.div_le_lower_bound; lia|apply Z.div_lt_upper_bound; lia]).
    unfold rune_step. cbn [app length]. replace (192 + c / 64 <? 128) with false by lia. replace (_ && _) with true by lia. unfold cont. replace (_ && _) with true by lia. f_equal. lia. }
  pose proof (Z.div_mod (c / 64) 64 ltac:(lia)) as D1. pose proof (Z.mod_pos_bound (c / 64) 64 ltac:(lia)) as M1. rewrite Z.div_div in D1 by lia. change (64 * 64) with 4096 in D1.
  destruct (c <? 65536) eqn:C3.
  { do 3 eexists. split; [reflexivity|]. split; [reflexivity|]. assert (R : 0 <= c / 4096 < 16) by (split; [apply Z.div_pos; lia|apply Z.div_lt_upper_bound; lia]).
    unfold rune_step. cbn [app length]. replace (224 + c / 4096 <? 128) with false by lia. replace ((194 <=? 224 + c / 4096) && (224 + c / 4096 <=? 223)) with false by lia. replace ((224 <=? 224 + c / 4096) && (224 + c / 4096 <=? 239)) with true by lia. cbv zeta. unfold cont.
    unfold scalar in Sc. replace (_ && _ && _) with true by (destruct (224 + c / 4096 =? 224) eqn:?, (224 + c / 4096 =? 237) eqn:?; lia). f_equal. lia. }
  pose proof (Z.div_mod (c / 4096) 64 ltac:(lia)) as D2. pose proof (Z.mod_pos_bound (c / 4096) 64 ltac:(lia)) as M2. rewrite Z.div_div in D2 by lia. change (4096 * 64) with 262144 in D2.
  do 3 eexists. split; [reflexivity|]. split; [reflexivity|]. unfold scalar in Sc. assert (R : 0 <= c / 262144 < 5) by (split; [apply Z.div_pos; lia|apply Z.div_lt_upper_bound; lia]).
  unfold rune_step. cbn [app length]. replace (240 + c / 262144 <? 128) with false by lia. replace ((194 <=? 240 + c / 262144) && (240 + c / 262144 <=? 223)) with false by lia. replace ((224 <=? 240 + c / 262144) && (240 + c / 262144 <=? 239)) with false by lia. replace ((240 <=? 240 + c / 262144) && (240 + c / 262144 <=? 244)) with true by lia. cbv zeta. unfold cont.
  replace (_ && _ && _ && _) with true by (destruct (240 + c / 262144 =? 240) eqn:?, (240 + c / 262144 =? 244) eqn:?; lia). f_equal. lia.
Qed.
Lemma clean_valid s : valid_text s -> clean s = s.
Proof.
  intros (cs & F & ->). unfold clean, runes. assert (G : forall f, (length (flat_map utf8 cs) <= f)%nat -> flat_map utf8 (runes_fuel f (flat_map utf8 cs)) = flat_map utf8 cs); [|apply G; lia].
  induction F as [|c cs S F IH]; intros f L; [destruct f; reflexivity|]. cbn [flat_map] in *. destruct (rune_step_utf8 c (flat_map utf8 cs) S) as (b0 & r & n & U & Ln & R). rewrite U in *. cbn [app length] in *.
  destruct f as [|f]; [lia|]. rewrite rune_step_runes, R. subst n. rewrite skipn_app, skipn_all, Nat.sub_diag. cbn [skipn app flat_map]. rewrite app_length in L. rewrite IH by lia. rewrite U. reflexivity.
Qed.
Lemma ascii_valid s : Forall (fun c => 0 <= c < 128) s -> valid_text s.
Proof.
  intros F. exists s. split; [eapply Forall_impl; [|exact F]; unfold scalar; cbn beta; intros; lia|]. induction F as [|c s H F IH]; [reflexivity|]. cbn [flat_map]. rewrite <- IH. unfold utf8. replace (c <? 128) with true by lia. reflexivity.
Qed.

(** ** Values *)
Definition jr (e : list Z) (j : json) : Prop := exists f0, forall f rest, (f0 <= f)%nat -> jread f (e ++ rest) = Some (j, rest).
Lemma jr_text e j : jr e j -> json_text e j.
Proof. intros (f0 & F). exists f0. intros f L. specialize (F f [] L). rewrite app_nil_r in F. exact F. Qed.
Lemma jr_string s : is_bytes s -> jr (go_string s) (JStr (clean s)).
Proof.
  intros I. exists 1%nat. intros f rest L. destruct f as [|f]; [lia|]. destruct (go_string_read s rest I) as (b & E & R). rewrite E. cbn [jread]. change (34 =? 34) with true. cbv iota. rewrite R. reflexivity.
Qed.
Lemma jr_null : jr (str "null") JNull.
Proof. exists 1%nat. intros f rest L. destruct f as [|f]; [lia|]. reflexivity. Qed.
Lemma jr_head e j : jr e j -> exists x r, e = x :: r /\ x <> 93 /\ x <> 125.
Proof.
  intros (f0 & F). specialize (F (S f0) []). destruct e as [|x r].
  - specialize (F ltac:(lia)). discriminate.
  - exists x, r. split; [reflexivity|]. specialize (F ltac:(lia)). cbn [app jread] in F. split; intros ->; cbn in F; discriminate.
Qed.
Lemma jelems_join es : forall js, Forall2 jr es js -> es <> [] -> exists f0, forall f rest, (f0 <= f)%nat -> jelems f (go_join es ++ 93 :: rest) = Some (js, rest).
Proof.
  induction es as [|e es IH]; intros js F N; [contradiction|]. inversion F as [|? j ? js' (f1 & J) F']; subst. destruct es as [|e' es].
  - inversion F'; subst. exists (S f1). intros f rest L. destruct f as [|f]; [lia|]. cbn [jelems go_join]. rewrite J by lia. reflexivity.
  - destruct (IH js' F' ltac:(discriminate)) as (f2 & G). exists (S (Nat.max f1 f2)). intros f rest L. destruct f as [|f]; [lia|]. cbn [jelems]. change (go_join (e :: e' :: es)) with (e ++ [44] ++ go_join (e' :: es)).
    rewrite <- !app_assoc. rewrite J by lia. change (([44] ++ go_join (e' :: es) ++ 93 :: rest)) with (44 :: (go_join (e' :: es) ++ 93 :: rest)). cbv iota. change (44 =? 93) with false. change (44 =? 44) with true. cbv iota. rewrite G by lia. reflexivity.
Qed.
Lemma jr_array es js : Forall2 jr es js -> jr (go_array (Some es)) (JArr js).
Proof.
  intros F. destruct es as [|e es].
  - inversion F; subst. exists 1%nat. intros f rest L. destruct f as [|f]; [lia|]. reflexivity.
  - destruct (jelems_join _ _ F ltac:(discriminate)) as (f0 & G). exists (S f0). intros f rest L. destruct f as [|f]; [lia|]. unfold go_array. rewrite <- !app_assoc. cbn [app].
    specialize (G f rest ltac:(lia)). inversion F as [|? j ? ? J F']; subst. destruct (jr_head _ _ J) as (x & r & E & Nx & _).
    assert (X : exists r', go_join (e :: es) ++ 93 :: rest = x :: r') by (subst e; destruct es; eexists; cbn; reflexivity). destruct X as (r' & X). cbn [jread]. change (91 =? 34) with false. change (91 =? 91) with true. cbv iota. rewrite X in *.
    replace (x =? 93) with false by lia. rewrite G. reflexivity.
Qed.
(** Names of fields: plain characters. *)
Definition plain (k : list Z) : bool := forallb (fun c => (32 <=? c) && (c <? 127) && negb ((c =? 34) || (c =? 92))) k.
Lemma jchars_plain k s : plain k = true -> jchars (k ++ 34 :: s) = Some (k, s).
Proof.
  induction k as [|c k IH]; intros P; [reflexivity|]. cbn [plain forallb] in P. apply andb_true_iff in P as [Pc P]. cbn [app jchars]. replace (c =? 34) with false by lia. replace (c =? 92) with false by lia. replace (c <? 32) with false by lia. rewrite IH by exact P. reflexivity.
Qed.
Lemma jmembers_join ms : forall js, Forall2 (fun '(k, e) '(k', j) => k = k' /\ plain k = true /\ jr e j) ms js -> ms <> [] ->
  exists f0, forall f rest, (f0 <= f)%nat -> jmembers f (go_join (map (fun '(k, e) => [34] ++ k ++ [34; 58] ++ e) ms) ++ 125 :: rest) = Some (js, rest).
Proof.
  induction ms as [|[k e] ms IH]; intros js F N; [contradiction|]. inversion F as [|? [k' j] ? js' Hm F']; subst. cbn beta iota in Hm. destruct Hm as (<- & P & f1 & J). destruct ms as [|m ms].
  - inversion F'; subst. exists (S f1). intros f rest L. destruct f as [|f]; [lia|]. cbn [map go_join]. rewrite <- !app_assoc. cbn [app jmembers]. change (negb (34 =? 34)) with false. cbv iota. rewrite jchars_plain by exact P. change (negb (58 =? 58)) with false. cbv iota. rewrite J by lia. reflexivity.
  - destruct (IH js' F' ltac:(discriminate)) as (f2 & G). exists (S (Nat.max f1 f2)). intros f rest L. destruct f as [|f]; [lia|]. cbn [map]. set (es := map _ ms) in *. change (map _ (m :: ms)) with ((let '(k, e) := m in [34] ++ k ++ [34; 58] ++ e) :: es) in G. set (e' := let '(k, e) := m in _) in *.
    change (go_join (([34] ++ k ++ [34; 58] ++ e) :: e' :: es)) with (([34] ++ k ++ [34; 58] ++ e) ++ [44] ++ go_join (e' :: es)). rewrite <- !app_assoc. cbn [app jmembers]. change (negb (34 =? 34)) with false. cbv iota. rewrite jchars_plain by exact P. change (negb (58 =? 58)) with false. cbv iota.
    rewrite J by lia. change (44 =? 125) with false. change (44 =? 44) with true. cbv iota. rewrite G by lia. reflexivity.
Qed.
Lemma jr_object ms js : Forall2 (fun '(k, e) '(k', j) => k = k' /\ plain k = true /\ jr e j) ms js -> jr (go_object ms) (JObj js).
Proof.
  intros F. destruct ms as [|[k e] ms].
  - inversion F; subst. exists 1%nat. intros f rest L. destruct f as [|f]; [lia|]. reflexivity.
  - destruct (jmembers_join _ _ F ltac:(discriminate)) as (f0 & G). exists (S f0). intros f rest L. destruct f as [|f]; [lia|]. unfold go_object. set (g := go_join _) in *. change (([123] ++ g ++ [125]) ++ rest) with (123 :: ((g ++ [125]) ++ rest)). rewrite <- app_assoc. change ([125] ++ rest) with (125 :: rest).
    specialize (G f rest ltac:(lia)). assert (X : exists r', g ++ 125 :: rest = 34 :: r') by (unfold g; destruct ms; eexists; cbn; reflexivity). destruct X as (r' & X).
    cbn [jread]. change (123 =? 34) with false. change (123 =? 91) with false. change (123 =? 123) with true. cbv iota. rewrite X in *. change (34 =? 125) with false. cbv iota. rewrite G. reflexivity.
Qed.

(** ** Numbers *)
(** The decimal text of a number. *)
Definition digits_num (ds : list Z) : Z := fold_left (fun a d => a * 10 + (d - 48)) ds 0.
Definition decimal_text (s : list Z) (n : Z) : Prop :=
  exists ds, ds <> [] /\ Forall (fun d => 48 <= d <= 57) ds /\ (hd 0 ds = 48 -> ds = [48]) /\ ((0 <= n /\ s = ds /\ digits_num ds = n) \/ (n < 0 /\ s = 45 :: ds /\ digits_num ds = - n)).
Lemma digits_acc ds : forall a, fold_left (fun a d => a * 10 + (d - 48)) ds a = a * 10 ^ zlen ds + digits_num ds.
Proof.
  unfold digits_num. induction ds as [|d ds IH]; intros a; cbn [fold_left]; [change (zlen (@nil Z)) with 0; lia|]. rewrite IH, (IH (0 * 10 + (d - 48))), zlen_cons. pose proof (zlen_nonneg ds). rewrite Z.pow_add_r by lia. lia.
Qed.
Lemma dec_fuel_ok f : forall n acc, 0 <= n < 2 ^ Z.of_nat f -> Forall (fun d => 48 <= d <= 57) acc -> (f <> 0)%nat ->
  exists ds, dec_fuel f n acc = ds ++ acc /\ ds <> [] /\ Forall (fun d => 48 <= d <= 57) ds /\ digits_num ds = n /\ (hd 0 ds = 48 -> ds = [48]).
Proof.
  induction f as [|f IH]; intros n acc R F N; [contradiction|]. cbn [dec_fuel]. cbv zeta. pose proof (Z.div_mod n 10 ltac:(lia)) as D. pose proof (Z.mod_pos_bound n 10 ltac:(lia)) as M.
  destruct (n / 10 =? 0) eqn:Q.
  - exists [48 + n mod 10]. split; [reflexivity|]. split; [discriminate|]. split; [constructor; [lia|constructor]|]. split; [cbn [digits_num fold_left]; unfold digits_num; cbn [fold_left]; lia|]. cbn [hd]. intros E. f_equal. exact E.
  - assert (P : 0 < n / 10) by (pose proof (Z.div_pos n 10); lia). rewrite Nat2Z.inj_succ, Z.pow_succ_r in R by lia. assert (U : n / 10 < 2 ^ Z.of_nat f) by (apply Z.div_lt_upper_bound; lia).
    destruct (IH (n / 10) ((48 + n mod 10) :: acc)) as (ds & E & Nd & Fd & Dn & Hd); [lia|constructor; [lia|exact F]|destruct f; [cbn in U; lia|discriminate]|].
    exists (ds ++ [48 + n mod 10]). rewrite E, <- app_assoc. split; [reflexivity|]. split; [destruct ds; discriminate|]. split; [apply Forall_app; split; [exact Fd|constructor; [lia|constructor]]|].
    split; [unfold digits_num in *; rewrite fold_left_app, Dn; cbn [fold_left]; lia|]. intros K. destruct ds as [|d ds]; [contradiction|]. cbn [hd app] in *. specialize (Hd K). injection Hd as -> ->. cbn in Dn. exfalso. unfold digits_num in Dn. cbn in Dn. lia.
Qed.
Lemma dec_nat_ok n : 0 <= n -> exists ds, dec_nat n = ds /\ ds <> [] /\ Forall (fun d => 48 <= d <= 57) ds /\ digits_num ds = n /\ (hd 0 ds = 48 -> ds = [48]).
Proof.
  intros H. unfold dec_nat. pose proof (Z.log2_nonneg n). destruct (dec_fuel_ok (Z.to_nat (Z.log2 n + 1)) n []) as (ds & E & P).
  - rewrite Z2Nat.id by lia. destruct (Z.eq_dec n 0) as [->|Nz]; [cbn; lia|]. pose proof (Z.log2_spec n ltac:(lia)). lia.
  - constructor.
  - lia.
  - exists ds. rewrite app_nil_r in E. split; [exact E|exact P].
Qed.
Lemma format_int_ok n : decimal_text (format_int n) n.
Proof.
  unfold format_int. destruct (n <? 0) eqn:C.
  - destruct (dec_nat_ok (- n) ltac:(lia)) as (ds & E & N & F & D & H). exists ds. rewrite E. repeat (split; [assumption|]). right. split; [lia|]. split; [reflexivity|lia].
  - destruct (dec_nat_ok n ltac:(lia)) as (ds & E & N & F & D & H). exists ds. rewrite E. repeat (split; [assumption|]). left. split; [lia|]. split; [reflexivity|lia].
Qed.
Lemma decimal_text_value s n m : decimal_text s n -> decimal_text s m -> n = m.
Proof.
  intros (ds & N & F & _ & [(P & -> & D)|(P & -> & D)]) (es & N' & F' & _ & [(P' & E & D')|(P' & E & D')]).
  - subst. reflexivity.
  - subst. inversion F; lia.
  - rewrite <- E in F'. inversion F'; lia.
  - injection E as <-. lia.
Qed.
Lemma decimal_ascii s n : decimal_text s n -> Forall (fun c => 0 <= c < 128) s.
Proof.
  intros (ds & _ & F & _ & [(_ & -> & _)|(_ & -> & _)]); [|constructor; [lia|]]; (eapply Forall_impl; [|exact F]; cbn beta; intros; lia).
Qed.

(** ** Base 64 *)
Lemma b64_char_ok v : b64_value (b64_char v) (v mod 64).
Proof.
  pose proof (Z.mod_pos_bound v 64 ltac:(lia)) as M. split; [exact M|]. unfold b64_char. apply nth_error_nth'. change (length b64_alphabet) with 64%nat. lia.
Qed.
Lemma b64_encode_ok s : is_bytes s -> base64_of (b64_encode s) s.
Proof.
  assert (G : forall n s, (length s <= n)%nat -> is_bytes s -> base64_of (b64_encode s) s); [|intros; eapply G; [reflexivity|assumption]].
  intros n. induction n as [|n IH]; intros t L I; [destruct t; [constructor|cbn in L; lia]|].
  assert (V : forall v, 0 <= v < 16777216 -> v / 262144 mod 64 * 262144 + v / 4096 mod 64 * 4096 + v / 64 mod 64 * 64 + v mod 64 = v).
  { intros v Hv. change 262144 with (64 * 64 * 64). change 4096 with (64 * 64). rewrite <- !Z.div_div by lia. assert (R : 0 <= v / 64 / 64 / 64 < 64) by (split; [repeat apply Z.div_pos; lia|do 3 (apply Z.div_lt_upper_bound; [lia|]); lia]). rewrite (Z.mod_small (v / 64 / 64 / 64)) by exact R.
    pose proof (Z.div_mod v 64 ltac:(lia)). pose proof (Z.div_mod (v / 64) 64 ltac:(lia)). pose proof (Z.div_mod (v / 64 / 64) 64 ltac:(lia)). lia. }
  destruct t as [|a [|b [|c r]]]; [constructor| | |].
  - apply is_bytes_cons in I as [Ia _]. unfold is_byte in Ia. cbn [b64_encode]. cbv zeta. specialize (V (a * 65536) ltac:(lia)). eapply b64_one; [apply b64_char_ok|apply b64_char_ok|].
    replace (a * 65536 / 64 mod 64) with 0 in V by (replace (a * 65536) with (a * 16 * 64 * 64) by lia; rewrite Z.div_mul, Z.mod_mul by lia; reflexivity). replace (a * 65536 mod 64) with 0 in V by (replace (a * 65536) with (a * 1024 * 64) by lia; rewrite Z.mod_mul by lia; reflexivity). lia.
  - apply is_bytes_cons in I as [Ia I]. apply is_bytes_cons in I as [Ib _]. unfold is_byte in *. cbn [b64_encode]. cbv zeta. specialize (V (a * 65536 + b * 256) ltac:(lia)). eapply b64_two; [apply b64_char_ok|apply b64_char_ok|apply b64_char_ok|].
    replace ((a * 65536 + b * 256) mod 64) with 0 in V by (replace (a * 65536 + b * 256) with ((a * 1024 + b * 4) * 64) by lia; rewrite Z.mod_mul by lia; reflexivity). lia.
  - apply is_bytes_cons in I as [Ia I]. apply is_bytes_cons in I as [Ib I]. apply is_bytes_cons in I as [Ic I]. unfold is_byte in *. cbn [length] in L. change (b64_encode (a :: b :: c :: r)) with ([b64_char ((a * 65536 + b * 256 + c) / 262144); b64_char ((a * 65536 + b * 256 + c) / 4096); b64_char ((a * 65536 + b * 256 + c) / 64); b64_char (a * 65536 + b * 256 + c)] ++ b64_encode r).
    cbn [app]. eapply b64_full; [apply b64_char_ok|apply b64_char_ok|apply b64_char_ok|apply b64_char_ok| |apply IH; [lia|exact I]]. apply V. lia.
Qed.
Lemma b64_value_fun c v w : b64_value c v -> b64_value c w -> v = w.
Proof.
  intros [R E] [R' E']. assert (ND : NoDup b64_alphabet).
  { assert (X : forall l : list Z, (fix nd l := match l with [] => true | x :: r => negb (existsb (Z.eqb x) r) && nd r end) l = true -> NoDup l).
    { induction l as [|x l IH]; intros H; [constructor|]. apply andb_true_iff in H as [H1 H2]. constructor; [|apply IH, H2]. intros Q. rewrite negb_true_iff in H1. assert (existsb (Z.eqb x) l = true) by (apply existsb_exists; exists x; split; [exact Q|lia]). congruence. }
    apply X. reflexivity. }
  assert (Z.to_nat v = Z.to_nat w); [|lia]. eapply NoDup_nth_error; [exact ND|change (length b64_alphabet) with 64%nat; lia|]. change b64_alphabet with (str "ABCDEFGHIJKLMNOPQRSTUVWXYZabcdefghijklmnopqrstuvwxyz0123456789+/"). congruence.
Qed.
Lemma b64_not_pad c v : b64_value c v -> c <> 61.
Proof.
  intros [_ E] ->. apply nth_error_In in E. assert (C : forallb (fun c => negb (c =? 61)) b64_alphabet = true) by reflexivity. rewrite forallb_forall in C. apply C in E. discriminate.
Qed.
(** A text stands for at most one byte string. *)
Lemma base64_unique t a : base64_of t a -> forall b, is_bytes a -> is_bytes b -> base64_of t b -> a = b.
Proof.
  intros H. induction H; intros t0 Ia Ib K; inversion K; subst; try reflexivity;
    repeat match goal with A : b64_value ?c ?v, B : b64_value ?c ?w |- _ => let Q := fresh in pose proof (b64_value_fun _ _ _ A B) as Q; subst w; clear B end;
    try (exfalso; match goal with A : b64_value 61 _ |- _ => exact (b64_not_pad _ _ A eq_refl) end).
  all: repeat match goal with H : is_bytes (_ :: _) |- _ => let A := fresh "B" in apply is_bytes_cons in H as [A H]; unfold is_byte in A end.
  all: try match goal with IH : forall b, _ -> _ -> base64_of ?s b -> ?t = b, E : base64_of ?s ?u |- _ => rewrite (IH u) by assumption end.
  all: repeat f_equal; lia.
Qed.
