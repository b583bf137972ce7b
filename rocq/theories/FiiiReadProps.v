(** C146: what fiiiTransaction reads from a text. VerifyAndCombineTransaction takes the transaction back as JSON; here is what every
    text means to it, whatever the order and number of its members. *)
From Coq Require Import String ZArith List Bool Lia ZifyBool ZifyNat Permutation.
From Verif Require Import Go GoFacts GoJson Json GoUnjson GoUnjsonFacts JsonGrammar JsonGrammarProps JsonReadProps FiiiModel FiiiProps FiiiJsonModel FiiiJsonProps.
Import ListNotations.
Open Scope Z_scope.
Ltac Zify.zify_post_hook ::= idtac.

(** ** Specification *)
Definition digits (ds : list Z) : Prop := ds <> [] /\ Forall (fun c => 48 <= c <= 57) ds.
(** A number written without fraction and exponent. *)
Definition integer_text (lit : list Z) (n : Z) : Prop :=
  (digits lit /\ n = digits_num lit) \/ (exists ds, lit = 45 :: ds /\ digits ds /\ n = - digits_num ds).
(** Which values suit a field. *)
Definition text_value (v : jval) : Prop := v = VNull \/ exists s, v = VStr s.
Definition int_value (v : jval) : Prop := v = VNull \/ exists lit n, v = VNum lit /\ integer_text lit n /\ int64 n.
Definition list_of (suits : jval -> Prop) (v : jval) : Prop := v = VNull \/ exists l, v = VArr l /\ Forall suits l.
Definition member_suits (table : list (list Z * (jval -> Prop))) (m : list Z * jval) : Prop :=
  forall name suits, In (name, suits) table -> fold_name (fst m) = fold_name name -> suits (snd m).
Definition object_of (table : list (list Z * (jval -> Prop))) (v : jval) : Prop := v = VNull \/ exists ms, v = VObj ms /\ Forall (member_suits table) ms.
Definition input_table : list (list Z * (jval -> Prop)) := [
  (str "OutputTransactionHash", text_value); (str "OutputIndex", int_value); (str "Size", int_value); (str "UnlockScript", text_value)].
Definition output_table : list (list Z * (jval -> Prop)) := [
  (str "Index", int_value); (str "Amount", int_value); (str "Size", int_value); (str "LockScript", text_value)].
Definition tx_table : list (list Z * (jval -> Prop)) := [
  (str "Version", int_value); (str "Hash", text_value); (str "Timestamp", int_value); (str "Locktime", int_value); (str "ExpiredTime", int_value);
  (str "InputCount", int_value); (str "OutputCount", int_value); (str "Inputs", list_of (object_of input_table)); (str "Outputs", list_of (object_of output_table));
  (str "Size", int_value)].
(** What a field holds: the last member with its name that is not null; empty or zero when there is none. *)
Definition text_read (ms : list (list Z * jval)) (name : list Z) (s : list Z) : Prop :=
  match last_value name ms with None => s = [] | Some v => v = VStr s end.
Definition int_read_as (ms : list (list Z * jval)) (name : list Z) (n : Z) : Prop :=
  match last_value name ms with None => n = 0 | Some v => exists lit, v = VNum lit /\ integer_text lit n /\ int64 n end.
(** All values given under a name, in order. *)
Fixpoint values_of (name : list Z) (ms : list (list Z * jval)) : list jval :=
  match ms with [] => [] | (k, v) :: r => if beq (fold_name k) (fold_name name) then v :: values_of name r else values_of name r end.
(** The arrays among them since the last null or empty array. *)
Fixpoint arrays_from (acc : list (list jval)) (vs : list jval) : list (list jval) :=
  match vs with
  | [] => acc
  | VArr (x :: l) :: r => arrays_from (acc ++ [x :: l]) r
  | _ :: r => arrays_from [] r
  end.
(** The members given for the element at a place, over all these arrays. *)
Definition members_at (i : nat) (arrays : list (list jval)) : list (list Z * jval) :=
  flat_map (fun a => match nth_error a i with Some (VObj ms) => ms | _ => [] end) arrays.
(** A list field has as many elements as the last array; each is read from the members given for its place. *)
Definition list_read {A} (element : list (list Z * jval) -> A -> Prop) (ms : list (list Z * jval)) (name : list Z) (l : list A) : Prop :=
  let arrays := arrays_from [] (values_of name ms) in
  length l = length (last arrays []) /\ forall i x, nth_error l i = Some x -> element (members_at i arrays) x.
Definition input_read_as (ms : list (list Z * jval)) (i : input) : Prop :=
  text_read ms (str "OutputTransactionHash") (i_hash i) /\ int_read_as ms (str "OutputIndex") (i_index i) /\ int_read_as ms (str "Size") (i_size i) /\ text_read ms (str "UnlockScript") (i_unlock i).
Definition output_read_as (ms : list (list Z * jval)) (o : output) : Prop :=
  int_read_as ms (str "Index") (o_index o) /\ int_read_as ms (str "Amount") (o_amount o) /\ int_read_as ms (str "Size") (o_size o) /\ text_read ms (str "LockScript") (o_lock o).
Definition tx_read_as (ms : list (list Z * jval)) (t : txmsg) : Prop :=
  int_read_as ms (str "Version") (t_version t) /\ text_read ms (str "Hash") (t_hash t) /\ int_read_as ms (str "Timestamp") (t_timestamp t) /\
  int_read_as ms (str "Locktime") (t_lock t) /\ int_read_as ms (str "ExpiredTime") (t_expired t) /\ int_read_as ms (str "InputCount") (t_incount t) /\
  int_read_as ms (str "OutputCount") (t_outcount t) /\ list_read input_read_as ms (str "Inputs") (t_inputs t) /\ list_read output_read_as ms (str "Outputs") (t_outputs t) /\
  int_read_as ms (str "Size") (t_size t).

(** ** Numbers *)
Lemma dec_value_iff ds n : dec_value ds = Some n <-> digits ds /\ n = digits_num ds.
Proof.
  unfold dec_value, digits. destruct ds as [|c r] eqn:E; [split; [discriminate|intros [[H _] _]; contradiction]|]. rewrite <- E. change (fold_left (fun a d => a * 10 + (d - 48)) ds 0) with (digits_num ds). split.
  - destruct (forallb is_digit ds) eqn:F; [|discriminate]. intros Q. split; [|congruence]. split; [subst ds; discriminate|]. apply Forall_forall. intros x I. rewrite forallb_forall in F. specialize (F x I). unfold is_digit in F. lia.
  - intros [[_ F] ->]. rewrite digits_forallb by exact F. reflexivity.
Qed.
Lemma digits_num_nonneg ds : Forall (fun c => 48 <= c <= 57) ds -> 0 <= digits_num ds.
Proof.
  unfold digits_num. intros F. assert (K : forall a, 0 <= a -> 0 <= fold_left (fun a d => a * 10 + (d - 48)) ds a).
  { induction F as [|d ds D F IH]; intros a A; cbn [fold_left]; [exact A|]. apply IH. lia. }
  apply K. lia.
Qed.
Lemma parse_int_iff lit n : parse_int 64 lit = Some n <-> integer_text lit n /\ int64 n.
Proof.
  unfold parse_int, integer_text, int64. change (64 - 1) with 63. destruct lit as [|c r].
  - split; [discriminate|]. intros [[[[H _] _]|(ds & H & _)] _]; [contradiction|discriminate].
  - destruct (Z.eqb_spec c 45) as [->|C].
    + split.
      * destruct (dec_value r) as [m|] eqn:D; [|discriminate]. apply dec_value_iff in D as [D ->]. destruct (digits_num r <=? 2 ^ 63) eqn:L; [|discriminate]. intros Q. assert (n = - digits_num r) by congruence. pose proof (digits_num_nonneg r (proj2 D)). split; [right; eauto|lia].
      * intros [[[[_ F] _]|(ds & Q & D & ->)] B]; [apply Forall_cons_iff in F as [F _]; lia|]. assert (r = ds) by congruence. subst r. rewrite (proj2 (dec_value_iff ds _) (conj D eq_refl)). replace (digits_num ds <=? 2 ^ 63) with true by lia. reflexivity.
    + split.
      * destruct (dec_value (c :: r)) as [m|] eqn:D; [|discriminate]. apply dec_value_iff in D as [D ->]. destruct (digits_num (c :: r) <? 2 ^ 63) eqn:L; [|discriminate]. intros Q. assert (n = digits_num (c :: r)) by congruence. pose proof (digits_num_nonneg _ (proj2 D)). split; [left; auto|lia].
      * intros [[[D ->]|(ds & Q & _)] B]; [|congruence]. rewrite (proj2 (dec_value_iff _ _) (conj D eq_refl)). replace (digits_num (c :: r) <? 2 ^ 63) with true by lia. reflexivity.
Qed.
Lemma integer_text_unique lit n m : integer_text lit n -> integer_text lit m -> n = m.
Proof.
  intros [[D ->]|(ds & E & D & ->)] [[D' ->]|(ds' & E' & D' & ->)].
  - reflexivity.
  - subst lit. destruct D as [_ D]. apply Forall_cons_iff in D as [D _]. lia.
  - subst lit. destruct D' as [_ D']. apply Forall_cons_iff in D' as [D' _]. lia.
  - congruence.
Qed.

(** ** Which texts are accepted *)
Lemma to_string_suits v old : (exists x, to_string v old = Some x) <-> text_value v.
Proof. unfold text_value. split; [intros [x E]; destruct v; try discriminate; eauto|intros [->|[s ->]]; cbn [to_string]; eauto]. Qed.
Lemma to_int_suits v old : (exists x, to_int 64 v old = Some x) <-> int_value v.
Proof.
  unfold int_value. split.
  - intros [x E]. destruct v; try discriminate; [auto|]. right. cbn [to_int] in E. apply parse_int_iff in E as [E B]. eauto.
  - intros [->|(lit & n & -> & D)]; cbn [to_int]; [eauto|]. exists n. apply parse_int_iff, D.
Qed.
Lemma some_map A B (f : A -> B) o : (exists y, option_map f o = Some y) <-> exists x, o = Some x.
Proof. destruct o as [x|]; cbn [option_map]; split; intros [y E]; try discriminate; eauto. Qed.
Section Table.
Variables (S : Type) (fs : list (list Z * (jval -> S -> option S))) (table : list (list Z * (jval -> Prop))).
Hypothesis Fits : Forall2 (fun f k => fst f = fst k /\ forall v s, (exists s', snd f v s = Some s') <-> snd k v) fs table.
Hypothesis Differ : NoDup (map (fun k => fold_name (fst k)) table).
Lemma find_suits k v : match find_field S k fs with Some g => forall s, (exists s', g v s = Some s') <-> member_suits table (k, v) | None => member_suits table (k, v) end.
Proof.
  unfold member_suits. cbn [fst snd]. revert Differ. induction Fits as [|[n g] [n' K] fs' t' [E G] F IH]; cbn [find_field map]; [intros _ name suits []|]. cbn [fst snd] in *. subst n'. intros D. inversion D as [|? ? Nin D']; subst. specialize (IH F D').
  destruct (beq (fold_name k) (fold_name n)) eqn:B.
  - apply beq_eq in B. intros s. rewrite G. split.
    + intros Kv name suits [I|I] Q; [congruence|]. exfalso. apply Nin. rewrite <- B, Q. apply (in_map (fun k => fold_name (fst k)) t' (name, suits) I).
    + intros H. apply (H n K); [left; reflexivity|exact B].
  - assert (B' : fold_name k <> fold_name n) by (intros Q; rewrite Q, (proj2 (beq_eq _ _) eq_refl) in B; discriminate). clear B.
    assert (X : (forall name suits, In (name, suits) t' -> fold_name k = fold_name name -> suits v) <-> (forall name suits, (n, K) = (name, suits) \/ In (name, suits) t' -> fold_name k = fold_name name -> suits v)).
    { split; [|intros H name suits I Q; apply (H name suits (or_intror I) Q)]. intros H name suits [I|I] Q; [congruence|exact (H name suits I Q)]. }
    destruct (find_field S k fs') as [g'|]; [intros s; rewrite (IH s)|apply X, IH]. exact X.
Qed.
Lemma assign_suits ms : forall s, (exists t, assign S fs ms s = Some t) <-> Forall (member_suits table) ms.
Proof.
  induction ms as [|[k v] r IH]; intros s; cbn [assign]; [split; [constructor|eauto]|]. pose proof (find_suits k v) as W. destruct (find_field S k fs) as [g|].
  - split.
    + intros [t E]. destruct (g v s) as [s'|] eqn:G; [|discriminate]. constructor; [apply (W s); eauto|]. apply (IH s'). eauto.
    + intros A. apply Forall_cons_iff in A as [A1 A2]. apply (W s) in A1 as [s' G]. rewrite G. apply IH, A2.
  - rewrite Forall_cons_iff. rewrite (IH s). tauto.
Qed.
Lemma struct_suits v s : (exists t, to_struct S fs v s = Some t) <-> object_of table v.
Proof.
  unfold object_of. destruct v; cbn [to_struct]; try (split; [intros [t E]; discriminate|intros [E|(ms & E & _)]; discriminate]).
  - split; eauto.
  - rewrite assign_suits. split; [eauto|]. intros [E|(m & E & F)]; [discriminate|]. assert (l = m) by congruence. subst l. exact F.
Qed.
Lemma elems_suits zero l : forall held, (exists t, to_elems S fs zero l held = Some t) <-> Forall (object_of table) l.
Proof.
  induction l as [|v r IH]; intros held; cbn [to_elems]; [split; [constructor|eauto]|]. rewrite Forall_cons_iff, <- (IH (tl held)), <- (struct_suits v (hd zero held)). split.
  - intros [t E]. destruct (to_struct S fs v (hd zero held)) as [x|]; [|discriminate]. destruct (to_elems S fs zero r (tl held)) as [y|]; [|discriminate]. eauto.
  - intros [[x ->] [y ->]]. eauto.
Qed.
Lemma slice_suits zero v sl : (exists t, to_slice S fs zero v sl = Some t) <-> list_of (object_of table) v.
Proof.
  unfold list_of. destruct v; cbn [to_slice]; try (split; [intros [t E]; discriminate|intros [E|(ms & E & _)]; discriminate]).
  - split; eauto.
  - assert (X : VArr l = VNull \/ (exists l0, VArr l = VArr l0 /\ Forall (object_of table) l0) <-> Forall (object_of table) l).
    { split; [intros [E|(m & E & F)]; [discriminate|]; assert (l = m) by congruence; subst l; exact F|eauto]. }
    rewrite X. destruct l as [|x l]; [split; [constructor|eauto]|]. rewrite some_map. apply elems_suits.
Qed.
End Table.
Ltac table := repeat match goal with |- Forall2 _ [] [] => constructor | |- Forall2 _ (_ :: _) (_ :: _) => constructor; [split; [reflexivity|cbn [fst snd]; intros v s]|] end.
Lemma differ_by l : (fix d (l : list (list Z)) : bool := match l with [] => true | x :: r => forallb (fun y => negb (beq x y)) r && d r end) l = true -> NoDup l.
Proof.
  induction l as [|x r IH]; [constructor|]. intros H. apply andb_true_iff in H as [H1 H2]. constructor; [|exact (IH H2)]. intros I. rewrite forallb_forall in H1. specialize (H1 x I). rewrite (proj2 (beq_eq x x) eq_refl) in H1. discriminate.
Qed.
Transparent input_fields output_fields tx_fields.
Lemma input_fits : Forall2 (fun f k => fst f = fst k /\ forall v s, (exists s', snd f v s = Some s') <-> snd k v) input_fields input_table.
Proof.
  unfold input_fields, input_table. table.
  - unfold set_i_hash. rewrite some_map. apply to_string_suits.
  - unfold set_i_index. rewrite some_map. apply to_int_suits.
  - unfold set_i_size. rewrite some_map. apply to_int_suits.
  - unfold set_i_unlock. rewrite some_map. apply to_string_suits.
Qed.
Lemma output_fits : Forall2 (fun f k => fst f = fst k /\ forall v s, (exists s', snd f v s = Some s') <-> snd k v) output_fields output_table.
Proof.
  unfold output_fields, output_table. table.
  - unfold set_o_index. rewrite some_map. apply to_int_suits.
  - unfold set_o_amount. rewrite some_map. apply to_int_suits.
  - unfold set_o_size. rewrite some_map. apply to_int_suits.
  - unfold set_o_lock. rewrite some_map. apply to_string_suits.
Qed.
Lemma input_differ : NoDup (map (fun k => fold_name (fst k)) input_table).
Proof. apply differ_by. vm_compute. reflexivity. Qed.
Lemma output_differ : NoDup (map (fun k => fold_name (fst k)) output_table).
Proof. apply differ_by. vm_compute. reflexivity. Qed.
Lemma tx_differ : NoDup (map (fun k => fold_name (fst k)) tx_table).
Proof. apply differ_by. vm_compute. reflexivity. Qed.
Lemma tx_fits : Forall2 (fun f k => fst f = fst k /\ forall v s, (exists s', snd f v s = Some s') <-> snd k v) tx_fields tx_table.
Proof.
  unfold tx_fields, tx_table. table.
  - unfold lift, set_t_version. rewrite !some_map. apply to_int_suits.
  - unfold lift, set_t_hash. rewrite !some_map. apply to_string_suits.
  - unfold lift, set_t_timestamp. rewrite !some_map. apply to_int_suits.
  - unfold lift, set_t_lock. rewrite !some_map. apply to_int_suits.
  - unfold lift, set_t_expired. rewrite !some_map. apply to_int_suits.
  - unfold lift, set_t_incount. rewrite !some_map. apply to_int_suits.
  - unfold lift, set_t_outcount. rewrite !some_map. apply to_int_suits.
  - unfold set_r_inputs. rewrite some_map. apply slice_suits; [exact input_fits|exact input_differ].
  - unfold set_r_outputs. rewrite some_map. apply slice_suits; [exact output_fits|exact output_differ].
  - unfold lift, set_t_size. rewrite !some_map. apply to_int_suits.
Qed.
(** A text is accepted exactly if it is JSON, null or an object, and every member with the name of a field has a value that suits the field. *)
Theorem fiii_json_accepted_iff : forall text, (exists t, from_json text = Ok t) <-> exists v, is_json text v /\ object_of tx_table v.
Proof.
  intros text. setoid_rewrite <- unjson_iff_json. unfold from_json, read_json. split.
  - intros [t E]. destruct (unjson text) as [v|]; [|discriminate]. exists v. split; [reflexivity|]. apply (struct_suits reading tx_fields tx_table tx_fits tx_differ v zero_reading). destruct (to_struct reading tx_fields v zero_reading) as [r|]; [eauto|discriminate].
  - intros (v & -> & O). apply (struct_suits reading tx_fields tx_table tx_fits tx_differ v zero_reading) in O as [r ->]. cbn [bind]. eauto.
Qed.

(** ** What is read *)
Fixpoint conv_all {A} (conv : jval -> A -> option A) (vs : list jval) (x : A) : option A :=
  match vs with [] => Some x | v :: r => match conv v x with Some y => conv_all conv r y | None => None end end.
Section All.
Variables (S A : Type) (fs : list (list Z * (jval -> S -> option S))) (P : S -> A) (name : list Z) (conv : jval -> A -> option A).
Hypothesis Here : forall k g v s s', find_field S k fs = Some g -> beq (fold_name k) (fold_name name) = true -> g v s = Some s' -> conv v (P s) = Some (P s').
Hypothesis Away : forall k g v s s', find_field S k fs = Some g -> beq (fold_name k) (fold_name name) = false -> g v s = Some s' -> P s' = P s.
Hypothesis Known : forall k, beq (fold_name k) (fold_name name) = true -> find_field S k fs <> None.
Lemma assign_all ms : forall s t, assign S fs ms s = Some t -> conv_all conv (values_of name ms) (P s) = Some (P t).
Proof.
  induction ms as [|[k v] r IH]; intros s t; cbn [assign values_of]; [intros E; cbn [conv_all]; congruence|]. destruct (find_field S k fs) as [g|] eqn:F.
  - destruct (g v s) as [s'|] eqn:G; [|discriminate]. intros E. specialize (IH _ _ E). destruct (beq (fold_name k) (fold_name name)) eqn:B.
    + cbn [conv_all]. rewrite (Here _ _ _ _ _ F B G). exact IH.
    + rewrite <- (Away _ _ _ _ _ F B G). exact IH.
  - intros E. destruct (beq (fold_name k) (fold_name name)) eqn:B; [exfalso; exact (Known k B F)|exact (IH _ _ E)].
Qed.
End All.
Lemma string_null x : to_string VNull x = Some x. Proof. reflexivity. Qed.
Lemma string_over v x y : v <> VNull -> to_string v x = to_string v y. Proof. destruct v; intros H; try reflexivity. contradiction. Qed.
Lemma int_null x : to_int 64 VNull x = Some x. Proof. reflexivity. Qed.
Lemma int_over v x y : v <> VNull -> to_int 64 v x = to_int 64 v y. Proof. destruct v; intros H; try reflexivity. contradiction. Qed.
Lemma text_of ms name (s : list Z) : match last_value name ms with None => s = [] | Some v => forall x, to_string v x = Some s end -> text_read ms name s.
Proof.
  unfold text_read. destruct (last_value name ms) as [v|]; [|auto]. intros H. pose proof (H []) as H0. pose proof (H [1]) as H1. destruct v; cbn [to_string] in H0, H1; try discriminate; congruence.
Qed.
Lemma int_of ms name n : match last_value name ms with None => n = 0 | Some v => forall x, to_int 64 v x = Some n end -> int_read_as ms name n.
Proof.
  unfold int_read_as. destruct (last_value name ms) as [v|]; [|auto]. intros H. pose proof (H 0) as H0. pose proof (H 1) as H1. destruct v; cbn [to_int] in H0, H1; try discriminate; [congruence|]. eexists. split; [reflexivity|]. apply parse_int_iff, H0.
Qed.
Lemma map_ok A B (f : A -> B) o y : option_map f o = Some y -> exists x, o = Some x /\ y = f x.
Proof. destruct o as [x|]; [|discriminate]. intros E. exists x. split; [reflexivity|]. cbn [option_map] in E. congruence. Qed.
Ltac decided E B := rewrite E in B; match type of B with beq ?a ?b = ?c => let x := eval vm_compute in (beq a b) in change (x = c) in B; first [discriminate B|clear B] end.
Ltac set_done G := let x := fresh "x" in let C := fresh "C" in let y := fresh "y" in let D := fresh "D" in
  apply map_ok in G as (x & C & ->); try (apply map_ok in C as (y & C & ->)); cbn [i_hash i_index i_size i_unlock o_index o_amount o_size o_lock r_tx r_inputs r_outputs t_version t_hash t_timestamp t_lock t_expired t_incount t_outcount t_size]; first [exact C|reflexivity].
Ltac at_field := let F := fresh in let B := fresh in let G := fresh in let n := fresh "n" in let I := fresh in let E := fresh in let I1 := fresh in let I2 := fresh in
  intros ? ? ? ? ? F B G; apply find_field_in in F as (n & I & E); unfold input_fields, output_fields, tx_fields in I; cbn [In] in I;
  repeat (destruct I as [I|I]; [pose proof (f_equal fst I) as I1; pose proof (f_equal snd I) as I2; cbn [fst snd] in I1, I2; rewrite <- I1 in E; rewrite <- I2 in G; clear I I1 I2; decided E B;
     unfold lift, set_i_hash, set_i_index, set_i_size, set_i_unlock, set_o_index, set_o_amount, set_o_size, set_o_lock, set_t_version, set_t_hash, set_t_timestamp, set_t_lock, set_t_expired, set_t_incount, set_t_outcount, set_t_size, set_r_inputs, set_r_outputs in G; set_done G|]); destruct I.
Ltac has_field := let B := fresh in let F := fresh in intros ? B F; apply beq_eq in B; revert B; eapply (find_field_none _ _ _ F); unfold input_fields, output_fields, tx_fields; cbn [In]; eauto 15 using or_introl, or_intror.
Ltac field P := match goal with E : assign ?T ?fs ?ms ?s = Some ?t |- text_read ?ms ?name _ => apply text_of; exact (assign_last T (list Z) fs P name to_string ltac:(at_field) ltac:(at_field) ltac:(has_field) string_null string_over ms s t E)
  | E : assign ?T ?fs ?ms ?s = Some ?t |- int_read_as ?ms ?name _ => apply int_of; exact (assign_last T Z fs P name (to_int 64) ltac:(at_field) ltac:(at_field) ltac:(has_field) int_null int_over ms s t E) end.
Lemma input_reads ms t : assign input input_fields ms zero_input = Some t -> input_read_as ms t.
Proof.
  intros E. unfold input_read_as. split; [field i_hash|split; [field i_index|split; [field i_size|field i_unlock]]].
Qed.
Lemma output_reads ms t : assign output output_fields ms zero_output = Some t -> output_read_as ms t.
Proof.
  intros E. unfold output_read_as. split; [field o_index|split; [field o_amount|split; [field o_size|field o_lock]]].
Qed.
(** *** Lists *)
Lemma nth_skip A (l : list A) d : forall n i, nth i (skipn n l) d = nth (n + i) l d.
Proof. induction l as [|x l IH]; intros [|n] i; cbn [skipn Nat.add nth]; try reflexivity; [destruct i; reflexivity|]. apply IH. Qed.
Lemma assign_app S fs a : forall b s, assign S fs (a ++ b) s = match assign S fs a s with Some t => assign S fs b t | None => None end.
Proof.
  induction a as [|[k v] a IH]; intros b s; cbn [assign app]; [reflexivity|]. destruct (find_field S k fs) as [g|]; [|apply IH]. destruct (g v s); [apply IH|reflexivity].
Qed.
Lemma members_snoc i arrays a : members_at i (arrays ++ [a]) = members_at i arrays ++ match nth_error a i with Some (VObj ms) => ms | _ => [] end.
Proof. unfold members_at. rewrite flat_map_app. cbn [flat_map]. rewrite app_nil_r. reflexivity. Qed.
Section Lists.
Variables (S : Type) (fs : list (list Z * (jval -> S -> option S))) (zero : S).
Lemma elems_read l : forall held r, to_elems S fs zero l held = Some r -> length r = length l /\
  forall i, (i < length l)%nat -> exists v, nth_error l i = Some v /\ to_struct S fs v (nth i held zero) = Some (nth i r zero).
Proof.
  induction l as [|v l IH]; intros held r; cbn [to_elems].
  - intros E. assert (r = []) by congruence. subst r. split; [reflexivity|]. cbn [length]. intros i H. lia.
  - destruct (to_struct S fs v (hd zero held)) as [x|] eqn:X; [|discriminate]. destruct (to_elems S fs zero l (tl held)) as [t|] eqn:T; [|discriminate]. intros E. assert (r = x :: t) by congruence. subst r. destruct (IH _ _ T) as [L K]. split; [cbn [length]; lia|].
    intros [|i] H; cbn [nth_error nth length] in *.
    + exists v. split; [reflexivity|]. replace (nth 0 held zero) with (hd zero held) by (destruct held; reflexivity). exact X.
    + destruct (K i ltac:(lia)) as (w & E1 & E2). exists w. split; [exact E1|]. replace (nth (Datatypes.S i) held zero) with (nth i (tl held) zero) by (destruct held; [destruct i|]; reflexivity). exact E2.
Qed.
Definition holds (arrays : list (list jval)) (sl : slice S) : Prop :=
  length (items sl) = length (last arrays []) /\ forall i, assign S fs (members_at i arrays) zero = Some (nth i (items sl ++ beyond sl) zero).
Lemma slice_step v sl sl' : to_slice S fs zero v sl = Some sl' -> forall arrays, holds arrays sl -> holds (match v with VArr (x :: l) => arrays ++ [x :: l] | _ => [] end) sl'.
Proof.
  assert (Start : forall n, holds [] {| items := []; beyond := []; is_nil := n |}).
  { intros n. split; [reflexivity|]. intros i. cbn [items beyond app members_at flat_map assign]. destruct i; reflexivity. }
  intros E arrays [L K]. destruct v; try discriminate E; cbn [to_slice] in E.
  - assert (sl' = nil_slice) by congruence. subst sl'. apply Start.
  - destruct l as [|x l]; [match type of E with Some ?a = Some _ => assert (sl' = a) by congruence end; subst sl'; apply Start|].
    apply map_ok in E as (r & E & ->). apply elems_read in E as [Lr Kr]. split; cbn [items beyond]; [rewrite last_last; exact Lr|].
    intros i. rewrite members_snoc, assign_app, (K i). destruct (Nat.lt_ge_cases i (length (x :: l))) as [Hi|Hi].
    + rewrite (app_nth1 r) by lia. destruct (Kr i Hi) as (v & E1 & E2). rewrite E1. destruct v; cbn [to_struct assign] in *; congruence || discriminate.
    + rewrite (app_nth2 r) by lia. rewrite Lr, nth_skip. rewrite (proj2 (nth_error_None (x :: l) i) Hi). cbn [assign]. f_equal. f_equal. lia.
Qed.
Lemma slices_read vs : forall arrays sl sl', holds arrays sl -> conv_all (to_slice S fs zero) vs sl = Some sl' -> holds (arrays_from arrays vs) sl'.
Proof.
  induction vs as [|v r IH]; intros arrays sl sl' H; cbn [conv_all arrays_from]; [intros E; congruence|]. destruct (to_slice S fs zero v sl) as [s1|] eqn:E; [|discriminate]. intros C. pose proof (slice_step _ _ _ E _ H) as H1.
  destruct v as [| | | |[|x l]|]; exact (IH _ _ _ H1 C).
Qed.
Lemma list_reads (element : list (list Z * jval) -> S -> Prop) ms name sl : (forall m x, assign S fs m zero = Some x -> element m x) ->
  conv_all (to_slice S fs zero) (values_of name ms) nil_slice = Some sl -> list_read element ms name (items sl).
Proof.
  intros R C. assert (H0 : holds [] (@nil_slice S)) by (split; [reflexivity|]; intros i; cbn [items beyond nil_slice app members_at flat_map assign]; destruct i; reflexivity).
  destruct (slices_read _ _ _ _ H0 C) as [L K]. unfold list_read. split; [exact L|]. intros i x N. apply R. rewrite K. f_equal.
  assert (i < length (items sl))%nat by (apply nth_error_Some; congruence). rewrite app_nth1 by assumption. exact (nth_error_nth _ _ zero N).
Qed.
Lemma nil_last vs : forall sl sl', conv_all (to_slice S fs zero) vs sl = Some sl' -> is_nil sl' = match vs with [] => is_nil sl | _ => match last vs VNull with VNull => true | _ => false end end.
Proof.
  induction vs as [|v r IH]; intros sl sl'; cbn [conv_all]; [intros E; congruence|]. destruct (to_slice S fs zero v sl) as [s1|] eqn:E; [|discriminate]. intros C. rewrite (IH _ _ C). destruct r as [|w r]; [|reflexivity]. cbn [last].
  destruct v; try discriminate E; cbn [to_slice] in E; [assert (s1 = nil_slice) by congruence; subst s1; reflexivity|]. destruct l; [match type of E with Some ?a = Some _ => assert (s1 = a) by congruence end; subst s1; reflexivity|]. apply map_ok in E as (x & _ & ->). reflexivity.
Qed.
Lemma nil_empty vs : forall sl sl', (is_nil sl = true -> items sl = []) -> conv_all (to_slice S fs zero) vs sl = Some sl' -> is_nil sl' = true -> items sl' = [].
Proof.
  induction vs as [|w vs IH]; intros sl sl' G; cbn [conv_all]; [intros E N; assert (sl = sl') by congruence; subst sl'; exact (G N)|]. destruct (to_slice S fs zero w sl) as [s1|] eqn:E; [|discriminate]. apply IH. intros N1.
  destruct w; try discriminate E; cbn [to_slice] in E; [assert (s1 = nil_slice) by congruence; subst s1; reflexivity|]. destruct l; [match type of E with Some ?a = Some _ => assert (s1 = a) by congruence end; subst s1; reflexivity|]. apply map_ok in E as (x & _ & ->). discriminate N1.
Qed.
End Lists.
Ltac field_tx P := match goal with E : assign ?T ?fs ?ms ?s = Some ?t |- text_read ?ms ?name _ => apply text_of; exact (assign_last T (list Z) fs (fun r => P (r_tx r)) name to_string ltac:(at_field) ltac:(at_field) ltac:(has_field) string_null string_over ms s t E)
  | E : assign ?T ?fs ?ms ?s = Some ?t |- int_read_as ?ms ?name _ => apply int_of; exact (assign_last T Z fs (fun r => P (r_tx r)) name (to_int 64) ltac:(at_field) ltac:(at_field) ltac:(has_field) int_null int_over ms s t E) end.
Lemma inputs_all ms s t : assign reading tx_fields ms s = Some t -> conv_all (to_slice input input_fields zero_input) (values_of (str "Inputs") ms) (r_inputs s) = Some (r_inputs t).
Proof. apply assign_all; [at_field|at_field|has_field]. Qed.
Lemma outputs_all ms s t : assign reading tx_fields ms s = Some t -> conv_all (to_slice output output_fields zero_output) (values_of (str "Outputs") ms) (r_outputs s) = Some (r_outputs t).
Proof. apply assign_all; [at_field|at_field|has_field]. Qed.
Lemma tx_reads ms r : assign reading tx_fields ms zero_reading = Some r -> tx_read_as ms (read_tx r).
Proof.
  intros E. unfold tx_read_as, read_tx. cbn [t_version t_hash t_timestamp t_lock t_expired t_incount t_outcount t_inputs t_outputs t_size].
  split; [field_tx t_version|]. split; [field_tx t_hash|]. split; [field_tx t_timestamp|]. split; [field_tx t_lock|]. split; [field_tx t_expired|]. split; [field_tx t_incount|]. split; [field_tx t_outcount|].
  split; [apply (list_reads input input_fields zero_input); [apply input_reads|exact (inputs_all _ _ _ E)]|]. split; [apply (list_reads output output_fields zero_output); [apply output_reads|exact (outputs_all _ _ _ E)]|]. field_tx t_size.
Qed.

(** ** Theorems *)
(** Every accepted text with members is read as its members say. *)
Theorem fiii_json_reading : forall text ms t, is_json text (VObj ms) -> from_json text = Ok t -> tx_read_as ms t.
Proof.
  intros text ms t U. apply unjson_iff_json in U. unfold from_json, read_json. rewrite U. cbn [to_struct]. destruct (assign reading tx_fields ms zero_reading) as [r|] eqn:E; cbn [bind]; [|discriminate]. intros Q. assert (t = read_tx r) by congruence. subst t. apply tx_reads, E.
Qed.
(** The text null is read as the transaction without anything. *)
Theorem fiii_json_null : forall text, is_json text VNull ->
  from_json text = Ok {| t_version := 0; t_hash := []; t_timestamp := 0; t_lock := 0; t_expired := 0; t_incount := 0; t_outcount := 0; t_inputs := []; t_outputs := []; t_size := 0 |}.
Proof. intros text U. apply unjson_iff_json in U. unfold from_json, read_json. rewrite U. reflexivity. Qed.
Lemma text_det ms ms' name a b : last_value name ms = last_value name ms' -> text_read ms name a -> text_read ms' name b -> a = b.
Proof. unfold text_read. intros <-. destruct (last_value name ms) as [v|]; congruence. Qed.
Lemma int_det ms ms' name a b : last_value name ms = last_value name ms' -> int_read_as ms name a -> int_read_as ms' name b -> a = b.
Proof. unfold int_read_as. intros <-. destruct (last_value name ms) as [v|]; [|congruence]. intros (l & -> & A & _) (l' & E & B & _). assert (l = l') by congruence. subst l'. exact (integer_text_unique _ _ _ A B). Qed.
Lemma same_elements A (a : list A) : forall b, (forall i, nth_error a i = nth_error b i) -> a = b.
Proof.
  induction a as [|x a IH]; intros [|y b] E; [reflexivity|discriminate (E 0%nat)|discriminate (E 0%nat)|]. pose proof (E 0%nat) as E0. cbn [nth_error] in E0. f_equal; [congruence|]. apply IH. intros i. exact (E (Datatypes.S i)).
Qed.
Lemma list_det A (element : list (list Z * jval) -> A -> Prop) ms ms' name a b : (forall m x y, element m x -> element m y -> x = y) -> values_of name ms = values_of name ms' ->
  list_read element ms name a -> list_read element ms' name b -> a = b.
Proof.
  unfold list_read. intros D <- [La Ka] [Lb Kb]. rewrite <- Lb in La. apply same_elements. intros i. destruct (nth_error a i) as [x|] eqn:Ea.
  - destruct (nth_error b i) as [y|] eqn:Eb; [f_equal; eapply D; [apply Ka, Ea|apply Kb, Eb]|]. apply nth_error_None in Eb. assert (i < length a)%nat by (apply nth_error_Some; congruence). lia.
  - apply nth_error_None in Ea. symmetry. apply nth_error_None. lia.
Qed.
Lemma input_det ms x y : input_read_as ms x -> input_read_as ms y -> x = y.
Proof.
  intros (A1 & A2 & A3 & A4) (B1 & B2 & B3 & B4). pose proof (text_det _ _ _ _ _ eq_refl A1 B1) as Q1. pose proof (int_det _ _ _ _ _ eq_refl A2 B2) as Q2. pose proof (int_det _ _ _ _ _ eq_refl A3 B3) as Q3. pose proof (text_det _ _ _ _ _ eq_refl A4 B4) as Q4.
  clear - Q1 Q2 Q3 Q4. destruct x, y. cbn in *. congruence.
Qed.
Lemma output_det ms x y : output_read_as ms x -> output_read_as ms y -> x = y.
Proof.
  intros (A1 & A2 & A3 & A4) (B1 & B2 & B3 & B4). pose proof (int_det _ _ _ _ _ eq_refl A1 B1) as Q1. pose proof (int_det _ _ _ _ _ eq_refl A2 B2) as Q2. pose proof (int_det _ _ _ _ _ eq_refl A3 B3) as Q3. pose proof (text_det _ _ _ _ _ eq_refl A4 B4) as Q4.
  clear - Q1 Q2 Q3 Q4. destruct x, y. cbn in *. congruence.
Qed.
Lemma tx_det ms ms' x y : (forall name, last_value name ms = last_value name ms') -> (forall name, values_of name ms = values_of name ms') -> tx_read_as ms x -> tx_read_as ms' y -> x = y.
Proof.
  intros L V (A1 & A2 & A3 & A4 & A5 & A6 & A7 & A8 & A9 & A10) (B1 & B2 & B3 & B4 & B5 & B6 & B7 & B8 & B9 & B10).
  pose proof (int_det _ _ _ _ _ (L _) A1 B1) as Q1. pose proof (text_det _ _ _ _ _ (L _) A2 B2) as Q2. pose proof (int_det _ _ _ _ _ (L _) A3 B3) as Q3. pose proof (int_det _ _ _ _ _ (L _) A4 B4) as Q4. pose proof (int_det _ _ _ _ _ (L _) A5 B5) as Q5.
  pose proof (int_det _ _ _ _ _ (L _) A6 B6) as Q6. pose proof (int_det _ _ _ _ _ (L _) A7 B7) as Q7. pose proof (list_det _ _ _ _ _ _ _ input_det (V _) A8 B8) as Q8. pose proof (list_det _ _ _ _ _ _ _ output_det (V _) A9 B9) as Q9. pose proof (int_det _ _ _ _ _ (L _) A10 B10) as Q10.
  clear - Q1 Q2 Q3 Q4 Q5 Q6 Q7 Q8 Q9 Q10. destruct x, y. cbn in *. congruence.
Qed.
(** The members leave no choice. *)
Theorem fiii_json_determined : forall ms t t', tx_read_as ms t -> tx_read_as ms t' -> t = t'.
Proof. intros ms t t'. apply tx_det; reflexivity. Qed.
Lemma values_away name ms : ~ In (fold_name name) (map (fun m => fold_name (fst m)) ms) -> values_of name ms = [].
Proof.
  induction ms as [|[k v] r IH]; cbn [values_of map fst In]; [reflexivity|]. intros N. destruct (beq (fold_name k) (fold_name name)) eqn:B; [apply beq_eq in B; tauto|]. apply IH. tauto.
Qed.
Lemma values_iff name ms : names_differ ms -> forall v, values_of name ms = [v] <-> exists k, In (k, v) ms /\ fold_name k = fold_name name.
Proof.
  unfold names_differ. induction ms as [|[k w] r IH]; cbn [values_of map fst]; intros D v; [split; [discriminate|intros (k & [] & _)]|]. inversion D as [|? ? Nin D']; subst. destruct (beq (fold_name k) (fold_name name)) eqn:B.
  - apply beq_eq in B. rewrite values_away by (rewrite <- B; exact Nin). split.
    + intros E. assert (w = v) by congruence. subst w. exists k. split; [left; reflexivity|exact B].
    + intros (k' & [I|I] & F); [congruence|]. exfalso. apply Nin. rewrite B, <- F. apply (in_map (fun m : list Z * jval => fold_name (fst m)) r (k', v) I).
  - rewrite (IH D' v). split; intros (k' & I & F); exists k'; (split; [|exact F]); [right; exact I|]. destruct I as [I|I]; [|exact I]. exfalso. assert (k = k') by congruence. subst k'. rewrite F, (proj2 (beq_eq _ _) eq_refl) in B. discriminate.
Qed.
Lemma values_few name ms : names_differ ms -> values_of name ms = [] \/ exists v, values_of name ms = [v].
Proof.
  unfold names_differ. induction ms as [|[k w] r IH]; cbn [values_of map fst]; intros D; [auto|]. inversion D as [|? ? Nin D']; subst. destruct (beq (fold_name k) (fold_name name)) eqn:B; [|exact (IH D')].
  apply beq_eq in B. rewrite values_away by (rewrite <- B; exact Nin). eauto.
Qed.
Lemma values_perm name ms ms' : Permutation ms ms' -> names_differ ms -> values_of name ms = values_of name ms'.
Proof.
  intros P D. assert (D' : names_differ ms') by (unfold names_differ in *; eapply Permutation_NoDup; [apply Permutation_map; exact P|exact D]).
  destruct (values_few name ms D) as [E|[v E]].
  - destruct (values_few name ms' D') as [E'|[v E']]; [congruence|]. apply (values_iff name ms' D') in E' as (k & I & F). assert (X : values_of name ms = [v]) by (apply (values_iff name ms D); exists k; split; [eapply Permutation_in; [apply Permutation_sym; exact P|exact I]|exact F]). congruence.
  - rewrite E. symmetry. apply (values_iff name ms' D'). apply (values_iff name ms D) in E as (k & I & F). exists k. split; [eapply Permutation_in; eassumption|exact F].
Qed.
Lemma from_json_res text : (exists t, from_json text = Ok t) \/ from_json text = Err.
Proof. unfold from_json, read_json. destruct (unjson text) as [v|]; [|auto]. destruct (to_struct reading tx_fields v zero_reading); cbn [bind]; eauto. Qed.
(** Members with different names (without case) may be given in any order. *)
Theorem fiii_member_order : forall a b ms ms', is_json a (VObj ms) -> is_json b (VObj ms') -> Permutation ms ms' -> names_differ ms -> from_json a = from_json b.
Proof.
  intros a b ms ms' A B P D.
  assert (Acc : forall x y l l', is_json x (VObj l) -> is_json y (VObj l') -> Permutation l l' -> (exists t, from_json x = Ok t) -> exists t, from_json y = Ok t).
  { intros x y l l' X Y Pl Ex. apply fiii_json_accepted_iff in Ex as (v & X' & O). pose proof (json_meaning_unique _ _ _ X X') as Q. subst v. destruct O as [O|(l2 & Q & F)]; [discriminate|]. assert (l2 = l) by congruence. subst l2. apply fiii_json_accepted_iff. exists (VObj l'). split; [exact Y|]. right. exists l'. split; [reflexivity|]. eapply Permutation_Forall; eassumption. }
  destruct (from_json_res a) as [[t Ea]|Ea].
  - destruct (Acc a b ms ms' A B P (ex_intro _ t Ea)) as [t' Eb]. rewrite Ea, Eb. f_equal. apply (tx_det ms ms'); [intros name; apply last_value_perm; assumption|intros name; apply values_perm; assumption|eapply fiii_json_reading; eassumption|eapply fiii_json_reading; eassumption].
  - destruct (from_json_res b) as [[t Eb]|Eb]; [|congruence]. destruct (Acc b a ms' ms B A (Permutation_sym P) (ex_intro _ t Eb)) as [t' X]. congruence.
Qed.
(** Combining a text: the transaction read from it is combined, and written; an output list given as [] stays [], one that is missing or
    null is written as null. *)
Theorem fiii_combine_text_iff : forall H verify text sps out, combine_text H verify text sps = Ok out <->
  exists ms t o, is_json text (VObj ms) /\ from_json text = Ok t /\ verify_combine H verify t sps = Ok o /\
    out = tx_text false (match last (values_of (str "Outputs") ms) VNull with VNull => true | _ => false end) o.
Proof.
  intros H verify text sps out. unfold combine_text, from_json, read_json. destruct (unjson text) as [v|] eqn:U.
  2: { split; [discriminate|]. intros (ms & t & o & J & _). apply unjson_iff_json in J. congruence. }
  assert (K : forall ms r o, v = VObj ms -> to_struct reading tx_fields v zero_reading = Some r -> verify_combine H verify (read_tx r) sps = Ok o ->
    tx_text (is_nil (r_inputs r)) (is_nil (r_outputs r)) o = tx_text false (match last (values_of (str "Outputs") ms) VNull with VNull => true | _ => false end) o).
  { intros ms r o -> E V. cbn [to_struct] in E. pose proof (inputs_all _ _ _ E) as I. pose proof (outputs_all _ _ _ E) as O. apply nil_last in O. rewrite O. cbn [r_outputs zero_reading is_nil nil_slice].
    assert (N : is_nil (r_inputs r) = false).
    { destruct (is_nil (r_inputs r)) eqn:N; [|reflexivity]. exfalso. assert (X : items (r_inputs r) = []).
      { exact (nil_empty _ _ _ _ nil_slice _ (fun _ => eq_refl) I N). }
      apply fiii_combined_iff in V as (Ns & F & _). unfold read_tx in F. cbn [t_inputs] in F. rewrite X in F. inversion F; subst. contradiction. }
    rewrite N. destruct (values_of (str "Outputs") ms); reflexivity. }
  destruct (to_struct reading tx_fields v zero_reading) as [r|] eqn:E; cbn [bind].
  2: { split; [discriminate|]. intros (ms & t & o & _ & Q & _). discriminate. }
  destruct (verify_combine H verify (read_tx r) sps) as [o| |] eqn:V; cbn [bind].
  - split.
    + intros Q. assert (exists ms, v = VObj ms) as [ms ->].
      { destruct v; try discriminate E; [|eauto]. exfalso. cbn [to_struct] in E. assert (r = zero_reading) by congruence. subst r. apply fiii_combined_iff in V as (Ns & F & _). unfold read_tx, zero_reading, zero_tx in F. cbn [t_inputs r_inputs items nil_slice] in F. inversion F; subst. contradiction. }
      exists ms, (read_tx r), o. split; [apply unjson_iff_json; exact U|]. split; [reflexivity|]. split; [exact V|]. rewrite <- (K ms r o eq_refl eq_refl V). congruence.
    + intros (ms & t & o' & J & Q & V' & ->). apply unjson_iff_json in J. assert (v = VObj ms) by congruence. assert (t = read_tx r) by congruence. subst t. assert (o' = o) by congruence. subst o'. f_equal. exact (K ms r o H0 eq_refl V).
  - split; [discriminate|]. intros (ms & t & o' & _ & Q & V' & _). congruence.
  - split; [discriminate|]. intros (ms & t & o' & _ & Q & V' & _). congruence.
Qed.
Lemma slice_read_as A (f : A -> list Z) (g : A -> jval) n l : (n = true -> l = []) -> Forall (fun x => gr (f x) (g x)) l -> gr (slice_text n f l) (if n then VNull else VArr (map g l)).
Proof.
  intros N F. unfold slice_text. destruct n; [exact gr_null|]. apply gr_array. clear - F. induction F; cbn [map]; constructor; assumption.
Qed.
Lemma slice_back_as A fs zero (g : A -> jval) n l : (n = true -> l = []) -> Forall (fun x => to_struct A fs (g x) zero = Some x) l -> to_slice A fs zero (if n : bool then VNull else VArr (map g l)) nil_slice = Some {| items := l; beyond := []; is_nil := n |}.
Proof.
  intros N F. destruct n; [rewrite N by reflexivity; reflexivity|].
  assert (K : to_elems A fs zero (map g l) [] = Some l). { clear - F. induction F as [|x l' H F IH]; cbn [map to_elems hd tl]; [reflexivity|]. rewrite H, IH. reflexivity. }
  unfold to_slice, nil_slice. cbn [items beyond app]. rewrite K. destruct (map g l) eqn:M; [destruct l; [reflexivity|discriminate]|]. cbn [option_map]. rewrite skipn_nil. reflexivity.
Qed.
(** The text of a transaction is read back as the transaction, with lists written as null or as []. *)
Opaque input_fields output_fields tx_fields str.
Lemma text_back a b t : tx_typed t -> (a = true -> t_inputs t = []) -> (b = true -> t_outputs t = []) -> from_json (tx_text a b t) = Ok t.
Proof.
  intros (A & B & C & D & E & F & G & I & O & S) Na Nb.
  set (ia := if a then VNull else VArr (map input_val (t_inputs t))). set (ob := if b then VNull else VArr (map output_val (t_outputs t))).
  assert (R : gr (tx_text a b t) (VObj [(str "Version", VNum (format_int (t_version t))); (str "Hash", VStr (t_hash t)); (str "Timestamp", VNum (format_int (t_timestamp t))); (str "Locktime", VNum (format_int (t_lock t))); (str "ExpiredTime", VNum (format_int (t_expired t))); (str "InputCount", VNum (format_int (t_incount t))); (str "OutputCount", VNum (format_int (t_outcount t))); (str "Inputs", ia); (str "Outputs", ob); (str "Size", VNum (format_int (t_size t)))])).
  { Transparent str. unfold tx_text. obj.
    - apply slice_read_as; [exact Na|]. eapply Forall_impl; [|exact I]. intros i. apply input_read.
    - apply slice_read_as; [exact Nb|]. eapply Forall_impl; [|exact O]. intros o. apply output_read. }
  Opaque str. unfold from_json, read_json. rewrite (gr_text _ _ R). cbn [to_struct].
  cbn [assign]. rewrite find_t_version. unfold lift at 1, set_t_version at 1. rewrite int_read by assumption. cbn [option_map r_tx r_inputs r_outputs zero_reading t_version t_hash t_timestamp t_lock t_expired t_incount t_outcount t_inputs t_outputs t_size].
  cbn [assign]. rewrite find_t_hash. unfold lift at 1, set_t_hash at 1. cbn [to_string]. cbn [option_map r_tx r_inputs r_outputs zero_reading t_version t_hash t_timestamp t_lock t_expired t_incount t_outcount t_inputs t_outputs t_size].
  cbn [assign]. rewrite find_t_timestamp. unfold lift at 1, set_t_timestamp at 1. rewrite int_read by assumption. cbn [option_map r_tx r_inputs r_outputs zero_reading t_version t_hash t_timestamp t_lock t_expired t_incount t_outcount t_inputs t_outputs t_size].
  cbn [assign]. rewrite find_t_lock. unfold lift at 1, set_t_lock at 1. rewrite int_read by assumption. cbn [option_map r_tx r_inputs r_outputs zero_reading t_version t_hash t_timestamp t_lock t_expired t_incount t_outcount t_inputs t_outputs t_size].
  cbn [assign]. rewrite find_t_expired. unfold lift at 1, set_t_expired at 1. rewrite int_read by assumption. cbn [option_map r_tx r_inputs r_outputs zero_reading t_version t_hash t_timestamp t_lock t_expired t_incount t_outcount t_inputs t_outputs t_size].
  cbn [assign]. rewrite find_t_incount. unfold lift at 1, set_t_incount at 1. rewrite int_read by assumption. cbn [option_map r_tx r_inputs r_outputs zero_reading t_version t_hash t_timestamp t_lock t_expired t_incount t_outcount t_inputs t_outputs t_size].
  cbn [assign]. rewrite find_t_outcount. unfold lift at 1, set_t_outcount at 1. rewrite int_read by assumption. cbn [option_map r_tx r_inputs r_outputs zero_reading t_version t_hash t_timestamp t_lock t_expired t_incount t_outcount t_inputs t_outputs t_size].
  cbn [assign]. rewrite find_t_inputs. unfold set_r_inputs at 1. cbn [r_inputs zero_reading]. unfold ia. rewrite slice_back_as by (exact Na || (eapply Forall_impl; [|exact I]; intros y; apply input_back)). cbn [option_map r_tx r_inputs r_outputs zero_reading t_version t_hash t_timestamp t_lock t_expired t_incount t_outcount t_inputs t_outputs t_size].
  cbn [assign]. rewrite find_t_outputs. unfold set_r_outputs at 1. cbn [r_outputs zero_reading]. unfold ob. rewrite slice_back_as by (exact Nb || (eapply Forall_impl; [|exact O]; intros y; apply output_back)). cbn [option_map r_tx r_inputs r_outputs zero_reading t_version t_hash t_timestamp t_lock t_expired t_incount t_outcount t_inputs t_outputs t_size].
  cbn [assign]. rewrite find_t_size. unfold lift at 1, set_t_size at 1. rewrite int_read by assumption. cbn [option_map r_tx r_inputs r_outputs zero_reading t_version t_hash t_timestamp t_lock t_expired t_incount t_outcount t_inputs t_outputs t_size].
  cbn [bind]. destruct t; reflexivity.
Qed.
Transparent input_fields output_fields tx_fields str.
(** The text a combination returns is read back as the combined transaction, whatever text it was made from. *)
Theorem fiii_combined_text_reads : forall H verify text sps out, combine_text H verify text sps = Ok out ->
  exists t o, from_json text = Ok t /\ verify_combine H verify t sps = Ok o /\ (tx_typed o -> from_json out = Ok o).
Proof.
  intros H verify text sps out C. apply fiii_combine_text_iff in C as (ms & t & o & J & F & V & ->). exists t, o. split; [exact F|]. split; [exact V|]. intros T. apply text_back; [exact T|discriminate|].
  apply unjson_iff_json in J. unfold from_json, read_json in F. rewrite J in F. cbn [to_struct] in F. destruct (assign reading tx_fields ms zero_reading) as [r|] eqn:E; cbn [bind] in F; [|discriminate]. assert (t = read_tx r) by congruence. subst t.
  apply fiii_combined_iff in V as (_ & _ & body & _ & ->). cbn [t_outputs read_tx]. intros L. pose proof (outputs_all _ _ _ E) as O. refine (nil_empty _ _ _ _ nil_slice _ (fun _ => eq_refl) O _). rewrite (nil_last _ _ _ _ _ _ O). destruct (values_of (str "Outputs") ms); [reflexivity|]. exact L.
Qed.

(** ** Examples *)
(** Members in another order and case, one given twice, one unknown; a list given twice, so that an element of the second keeps what the
    first gave for its place. *)
Definition ex_text : list Z := str "{""size"":1,""VERSION"":7,""Inputs"":[{""OutputIndex"":4,""Size"":9},{}],""x"":[],""Size"":-2,""Inputs"":[{""OutputIndex"":5}]}".
Example ex_read : from_json ex_text = Ok {| t_version := 7; t_hash := []; t_timestamp := 0; t_lock := 0; t_expired := 0; t_incount := 0; t_outcount := 0;
  t_inputs := [{| i_hash := []; i_index := 5; i_size := 9; i_unlock := [] |}]; t_outputs := []; t_size := -2 |}.
Proof. vm_compute. reflexivity. Qed.
Definition ex_members : list (list Z * jval) := [(str "size", VNum [49]); (str "VERSION", VNum [55]); (str "Inputs", VArr [VObj [(str "OutputIndex", VNum [52]); (str "Size", VNum [57])]; VObj []]); (str "x", VArr []); (str "Size", VNum [45; 50]); (str "Inputs", VArr [VObj [(str "OutputIndex", VNum [53])]])].
Example ex_is_json : is_json ex_text (VObj ex_members).
Proof. apply unjson_iff_json. vm_compute. reflexivity. Qed.
Example ex_read_as : exists t, tx_read_as ex_members t /\ t_version t = 7 /\ length (t_inputs t) = 1%nat.
Proof. eexists. split; [exact (fiii_json_reading _ _ _ ex_is_json ex_read)|]. split; reflexivity. Qed.
(** null and [] start afresh; wrong kinds are refused; unknown members are not looked at. *)
Example ex_afresh : exists t, from_json (str "{""Inputs"":[{""Size"":9}],""Inputs"":null,""Inputs"":[{}]}") = Ok t /\ t_inputs t = [{| i_hash := []; i_index := 0; i_size := 0; i_unlock := [] |}].
Proof. eexists. split; [vm_compute; reflexivity|reflexivity]. Qed.
Example ex_refused : from_json (str "{""Version"":1.0}") = Err /\ from_json (str "{""Hash"":1}") = Err /\ from_json (str "{""Inputs"":[1]}") = Err /\ from_json (str "[]") = Err /\ exists t, from_json (str "{""other"":1e99}") = Ok t.
Proof. repeat split; try (vm_compute; reflexivity). eexists. vm_compute. reflexivity. Qed.
Example ex_bounds : from_json (str "{""Version"":9223372036854775808}") = Err /\ exists t, from_json (str "{""Version"":-9223372036854775808}") = Ok t.
Proof. split; [vm_compute; reflexivity|]. eexists. vm_compute. reflexivity. Qed.
(** Combining a text whose outputs are [] keeps them so. *)
Definition ex_empty_outputs : list Z := str "{""Inputs"":[{""OutputTransactionHash"":""00""}],""Outputs"":[]}".
Example ex_combines : exists out, combine_text (fun _ => []) (fun _ _ _ => true) ex_empty_outputs [{| s_signature := zeros 64; s_pubkey := zeros 32 |}] = Ok (tx_text false false out).
Proof.
  eexists. apply fiii_combine_text_iff. exists [(str "Inputs", VArr [VObj [(str "OutputTransactionHash", VStr (str "00"))]]); (str "Outputs", VArr [])]. do 2 eexists.
  split; [apply unjson_iff_json; vm_compute; reflexivity|]. split; [vm_compute; reflexivity|]. split; [vm_compute; reflexivity|]. reflexivity.
Qed.
Print Assumptions fiii_json_accepted_iff.
Print Assumptions fiii_json_reading.
Print Assumptions fiii_json_null.
Print Assumptions fiii_json_determined.
Print Assumptions fiii_member_order.
Print Assumptions fiii_combine_text_iff.
Print Assumptions fiii_combined_text_reads.
