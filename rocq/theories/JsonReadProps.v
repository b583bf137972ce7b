(** C132: how a transaction text may be written. The texts polkadotTransaction and fiiiTransaction take back from the caller are JSON
    (JsonGrammar.v, after RFC 8259): nothing else is accepted, and only what the text says counts. *)
From Coq Require Import String ZArith List Bool Lia ZifyBool ZifyNat Permutation.
From Verif Require Import Go GoFacts GoJson Json GoUnjson GoUnjsonFacts JsonGrammar JsonGrammarProps PolkadotModel PolkadotJsonModel PolkadotJsonProps.
From Verif Require FiiiModel FiiiJsonModel.
Import ListNotations.
Open Scope Z_scope.
Ltac Zify.zify_post_hook ::= idtac.

(** A text says one thing only. *)
Theorem json_meaning_unique : forall s v w, is_json s v -> is_json s w -> v = w.
Proof. intros s v w A B. apply unjson_iff_json in A, B. congruence. Qed.
(** Texts that are not JSON are refused. *)
Theorem polkadot_not_json_refused : forall verify code text signature, (forall v, ~ is_json text v) ->
  PolkadotJsonModel.from_json text = Err /\ verify_text verify code text signature = Ok ([], false).
Proof.
  intros verify code text signature N. assert (E : PolkadotJsonModel.from_json text = Err).
  { unfold PolkadotJsonModel.from_json. destruct (unjson text) as [v|] eqn:U; [|reflexivity]. apply unjson_iff_json in U. destruct (N v U). }
  split; [exact E|]. unfold verify_text. rewrite E. reflexivity.
Qed.
Theorem fiii_not_json_refused : forall H verify text sps, (forall v, ~ is_json text v) ->
  FiiiJsonModel.from_json text = Err /\ FiiiJsonModel.combine_text H verify text sps = Err.
Proof.
  intros H verify text sps N. assert (E : FiiiJsonModel.read_json text = Err).
  { unfold FiiiJsonModel.read_json. destruct (unjson text) as [v|] eqn:U; [|reflexivity]. apply unjson_iff_json in U. destruct (N v U). }
  unfold FiiiJsonModel.from_json, FiiiJsonModel.combine_text. rewrite E. split; reflexivity.
Qed.
(** Texts that say the same are treated alike: white space and escapes do not matter. *)
Theorem polkadot_same_meaning : forall verify code a b v signature, is_json a v -> is_json b v ->
  PolkadotJsonModel.from_json a = PolkadotJsonModel.from_json b /\ verify_text verify code a signature = verify_text verify code b signature.
Proof.
  intros verify code a b v signature A B. apply unjson_iff_json in A, B. assert (E : PolkadotJsonModel.from_json a = PolkadotJsonModel.from_json b) by (unfold PolkadotJsonModel.from_json; rewrite A, B; reflexivity).
  split; [exact E|]. unfold verify_text. rewrite E. reflexivity.
Qed.
Theorem fiii_same_meaning : forall H verify a b v sps, is_json a v -> is_json b v ->
  FiiiJsonModel.from_json a = FiiiJsonModel.from_json b /\ FiiiJsonModel.combine_text H verify a sps = FiiiJsonModel.combine_text H verify b sps.
Proof.
  intros H verify a b v sps A B. apply unjson_iff_json in A, B. assert (E : FiiiJsonModel.read_json a = FiiiJsonModel.read_json b) by (unfold FiiiJsonModel.read_json; rewrite A, B; reflexivity).
  unfold FiiiJsonModel.from_json, FiiiJsonModel.combine_text. rewrite E. split; reflexivity.
Qed.

(** ** The order of the members *)
Definition names_differ (ms : list (list Z * jval)) : Prop := NoDup (map (fun m => fold_name (fst m)) ms).
Lemma last_value_in name ms v : last_value name ms = Some v -> v <> VNull /\ exists k, In (k, v) ms /\ fold_name k = fold_name name.
Proof.
  induction ms as [|[k w] ms IH]; cbn [last_value]; [discriminate|]. destruct (last_value name ms) as [x|] eqn:E.
  - intros Q. assert (x = v) by congruence. subst x. destruct (IH eq_refl) as (N & k' & I & F). split; [exact N|]. exists k'. split; [right; exact I|exact F].
  - destruct (beq (fold_name k) (fold_name name)) eqn:B; [|discriminate]. apply beq_eq in B. destruct w; try discriminate; intros Q; injection Q as <-; (split; [discriminate|]); exists k; (split; [left; reflexivity|exact B]).
Qed.
Lemma last_value_of name ms k v : names_differ ms -> In (k, v) ms -> v <> VNull -> fold_name k = fold_name name -> last_value name ms = Some v.
Proof.
  unfold names_differ. induction ms as [|[k' w] ms IH]; [contradiction|]. cbn [map fst last_value]. intros D I N F. inversion D as [|? ? Nin D']; subst. destruct I as [I|I].
  - injection I as -> ->. destruct (last_value name ms) as [x|] eqn:E.
    + exfalso. apply last_value_in in E as (_ & k2 & I2 & F2). apply Nin. apply in_map_iff. exists (k2, x). split; [cbn [fst]; congruence|exact I2].
    + replace (beq (fold_name k) (fold_name name)) with true by (symmetry; apply beq_eq; exact F). destruct v; congruence || reflexivity.
  - rewrite (IH D' I N F). reflexivity.
Qed.
Lemma last_value_perm name ms ms' : Permutation ms ms' -> names_differ ms -> last_value name ms = last_value name ms'.
Proof.
  intros P D. assert (D' : names_differ ms') by (unfold names_differ in *; eapply Permutation_NoDup; [apply Permutation_map; exact P|exact D]).
  destruct (last_value name ms) as [v|] eqn:E.
  - symmetry. apply last_value_in in E as (N & k & I & F). apply (last_value_of name ms' k); try assumption. eapply Permutation_in; eassumption.
  - destruct (last_value name ms') as [v|] eqn:E'; [|reflexivity]. exfalso. apply last_value_in in E' as (N & k & I & F). assert (X : last_value name ms = Some v) by (apply (last_value_of name ms k); try assumption; eapply Permutation_in; [apply Permutation_sym; exact P|exact I]). congruence.
Qed.
Lemma text_fixed ms ms' name a b : last_value name ms = last_value name ms' -> text_given ms name a -> text_given ms' name b -> a = b.
Proof. unfold text_given. intros <-. destruct (last_value name ms) as [v|]; congruence. Qed.
Lemma number_fixed bits ms ms' name a b : last_value name ms = last_value name ms' -> number_given bits ms name a -> number_given bits ms' name b -> a = b.
Proof. unfold number_given. intros <-. destruct (last_value name ms) as [v|]; [|congruence]. intros (l & -> & _ & _ & <- & _) (l' & E & _ & _ & <- & _). congruence. Qed.
Lemma from_json_cases text : (exists t, PolkadotJsonModel.from_json text = Ok t) \/ PolkadotJsonModel.from_json text = Err.
Proof. unfold PolkadotJsonModel.from_json. destruct (unjson text) as [v|]; [|auto]. destruct (to_struct tx fields v zero); eauto. Qed.
(** Members with different names (without case) may be given in any order. *)
Theorem polkadot_member_order : forall verify code a b ms ms' signature, is_json a (VObj ms) -> is_json b (VObj ms') -> Permutation ms ms' -> names_differ ms ->
  PolkadotJsonModel.from_json a = PolkadotJsonModel.from_json b /\ verify_text verify code a signature = verify_text verify code b signature.
Proof.
  intros verify code a b ms ms' signature A B P D. enough (E : PolkadotJsonModel.from_json a = PolkadotJsonModel.from_json b) by (split; [exact E|unfold verify_text; rewrite E; reflexivity]).
  assert (L : forall name, last_value name ms = last_value name ms') by (intros name; apply last_value_perm; assumption).
  assert (Acc : forall x y l l', is_json x (VObj l) -> is_json y (VObj l') -> Permutation l l' -> (exists t, PolkadotJsonModel.from_json x = Ok t) -> exists t, PolkadotJsonModel.from_json y = Ok t).
  { intros x y l l' X Y Pl Ex. apply polkadot_json_accepted_iff in Ex. apply polkadot_json_accepted_iff. right. destruct Ex as [Ex|(l2 & Ex & F)]; [pose proof (json_meaning_unique _ _ _ X Ex); discriminate|]. pose proof (json_meaning_unique _ _ _ X Ex) as Q. assert (l2 = l) by congruence. subst l2.
    exists l'. split; [exact Y|]. eapply Permutation_Forall; eassumption. }
  destruct (from_json_cases a) as [[t Ea]|Ea].
  - destruct (Acc a b ms ms' A B P (ex_intro _ t Ea)) as [t' Eb]. rewrite Ea, Eb. f_equal. destruct (polkadot_json_last_member a ms t A Ea) as (A1 & A2 & A3 & A4 & A5 & A6 & A7 & A8 & A9 & A10). destruct (polkadot_json_last_member b ms' t' B Eb) as (B1 & B2 & B3 & B4 & B5 & B6 & B7 & B8 & B9 & B10).
    pose proof (text_fixed _ _ _ _ _ (L _) A1 B1) as Q1. pose proof (text_fixed _ _ _ _ _ (L _) A2 B2) as Q2. pose proof (number_fixed _ _ _ _ _ _ (L _) A3 B3) as Q3. pose proof (number_fixed _ _ _ _ _ _ (L _) A4 B4) as Q4. pose proof (number_fixed _ _ _ _ _ _ (L _) A5 B5) as Q5.
    pose proof (number_fixed _ _ _ _ _ _ (L _) A6 B6) as Q6. pose proof (text_fixed _ _ _ _ _ (L _) A7 B7) as Q7. pose proof (text_fixed _ _ _ _ _ (L _) A8 B8) as Q8. pose proof (number_fixed _ _ _ _ _ _ (L _) A9 B9) as Q9. pose proof (number_fixed _ _ _ _ _ _ (L _) A10 B10) as Q10.
    clear - Q1 Q2 Q3 Q4 Q5 Q6 Q7 Q8 Q9 Q10. destruct t, t'. cbn in *. congruence.
  - destruct (from_json_cases b) as [[t Eb]|Eb]; [|congruence]. destruct (Acc b a ms' ms B A (Permutation_sym P) (ex_intro _ t Eb)) as [t' X]. congruence.
Qed.

(** ** Examples *)
(** Two ways to write the same: white space, an escape for a letter, another order; a text with a comma too many is not JSON. *)
Definition ex_a : list Z := str "{""fee"":3,""amount"":5}".
Definition ex_b : list Z := str " { ""amou\u006et"" : 5 ,""fee"": 3 } ".
Example ex_written : is_json ex_a (VObj [(str "fee", VNum [51]); (str "amount", VNum [53])]) /\ is_json ex_b (VObj [(str "amount", VNum [53]); (str "fee", VNum [51])]) /\ names_differ [(str "fee", VNum [51]); (str "amount", VNum [53])].
Proof.
  split; [apply unjson_iff_json; reflexivity|]. split; [apply unjson_iff_json; reflexivity|]. unfold names_differ. cbn [map]. constructor; [intros [E|[]]; discriminate E|]. constructor; [intros []|constructor].
Qed.
Example ex_order : forall verify code signature, verify_text verify code ex_a signature = verify_text verify code ex_b signature.
Proof. intros verify code signature. destruct ex_written as (A & B & D). eapply polkadot_member_order; [exact A|exact B|apply perm_swap|exact D]. Qed.
Example ex_not_json : forall v, ~ is_json (str "{""fee"":3,}") v.
Proof. intros v J. apply unjson_iff_json in J. discriminate J. Qed.
(** A number with a leading zero, a bare word and a lone surrogate. *)
Example ex_edges : (forall v, ~ is_json (str "{""fee"":03}") v) /\ (forall v, ~ is_json (str "nul") v) /\ is_json (str """\ud800""") (VStr [239; 191; 189]) /\ is_json (str """\ud83d\ude00""") (VStr [240; 159; 152; 128]).
Proof.
  split; [intros v J; apply unjson_iff_json in J; discriminate J|]. split; [intros v J; apply unjson_iff_json in J; discriminate J|]. split; apply unjson_iff_json; reflexivity.
Qed.
Print Assumptions unjson_iff_json.
Print Assumptions json_meaning_unique.
Print Assumptions polkadot_not_json_refused.
Print Assumptions fiii_not_json_refused.
Print Assumptions polkadot_same_meaning.
Print Assumptions fiii_same_meaning.
Print Assumptions polkadot_member_order.
