(** C127, C128: the JSON texts of polkadotTransaction. *)
From Coq Require Import String ZArith List Bool Lia ZifyBool ZifyNat.
From Verif Require Import Go GoFacts GoJson Json GoUnjson GoUnjsonFacts JsonGrammar JsonGrammarProps PolkadotModel PolkadotProps PolkadotJsonModel.
Import ListNotations.
Open Scope Z_scope.
Ltac Zify.zify_post_hook ::= idtac.

(** ** Specification *)
Definition texts_ok (P : list Z -> Prop) (t : tx) : Prop := P (sender t) /\ P (recipient t) /\ P (block_hash t) /\ P (genesis_hash t).
(** A text or number given by a member; empty and zero when there is none. *)
Definition text_given (ms : list (list Z * jval)) (name : list Z) (s : list Z) : Prop :=
  match last_value name ms with None => s = [] | Some v => v = VStr s end.
Definition number_given (bits : Z) (ms : list (list Z * jval)) (name : list Z) (n : Z) : Prop :=
  match last_value name ms with
  | None => n = 0
  | Some v => exists lit, v = VNum lit /\ lit <> [] /\ Forall (fun c => 48 <= c <= 57) lit /\ digits_num lit = n /\ n < 2 ^ bits
  end.

Definition text_names : list (list Z) := [str "sender_pubkey"; str "recipient_pubkey"; str "block_hash"; str "genesis_hash"].
Definition number_names : list (list Z * Z) := [(str "amount", 64); (str "nonce", 64); (str "fee", 64); (str "block_height", 64); (str "spec_version", 32); (str "txVersion", 32)].
(** A member whose name is one of a transaction's has a value of the right kind. *)
Definition fits (m : list Z * jval) : Prop :=
  (forall name, In name text_names -> fold_name (fst m) = fold_name name -> snd m = VNull \/ exists s, snd m = VStr s) /\
  (forall name bits, In (name, bits) number_names -> fold_name (fst m) = fold_name name ->
     snd m = VNull \/ exists lit, snd m = VNum lit /\ lit <> [] /\ Forall (fun c => 48 <= c <= 57) lit /\ digits_num lit < 2 ^ bits).

(** ** Reading back *)
Definition cleaned (t : tx) : tx := {| sender := clean (sender t); recipient := clean (recipient t); amount := amount t; nonce := nonce t; fee := fee t; height := height t; block_hash := clean (block_hash t); genesis_hash := clean (genesis_hash t); spec_version := spec_version t; tx_version := tx_version t |}.
Definition members (t : tx) : list (list Z * jval) := [
  (str "sender_pubkey", VStr (clean (sender t))); (str "recipient_pubkey", VStr (clean (recipient t))); (str "amount", VNum (format_int (amount t)));
  (str "nonce", VNum (format_int (nonce t))); (str "fee", VNum (format_int (fee t))); (str "block_height", VNum (format_int (height t)));
  (str "block_hash", VStr (clean (block_hash t))); (str "genesis_hash", VStr (clean (genesis_hash t))); (str "spec_version", VNum (format_int (spec_version t)));
  (str "txVersion", VNum (format_int (tx_version t)))].
Lemma to_json_members t : texts_ok is_bytes t -> unjson (to_json t) = Some (VObj (members t)).
Proof.
  intros (A & B & C & D). apply gr_text. unfold to_json, members. apply gr_object.
  repeat match goal with |- Forall2 _ [] [] => constructor | |- Forall2 _ (_ :: _) (_ :: _) => constructor; [split; [reflexivity|split; [reflexivity|cbn [snd]; first [apply gr_number|apply gr_string; assumption]]]|] end.
Qed.
Lemma find_sender : find_field tx (str "sender_pubkey") fields = Some set_sender.
Proof. unfold fields. find_it. Qed.
Lemma find_recipient : find_field tx (str "recipient_pubkey") fields = Some set_recipient.
Proof. unfold fields. find_it. Qed.
Lemma find_amount : find_field tx (str "amount") fields = Some set_amount.
Proof. unfold fields. find_it. Qed.
Lemma find_nonce : find_field tx (str "nonce") fields = Some set_nonce.
Proof. unfold fields. find_it. Qed.
Lemma find_fee : find_field tx (str "fee") fields = Some set_fee.
Proof. unfold fields. find_it. Qed.
Lemma find_height : find_field tx (str "block_height") fields = Some set_height.
Proof. unfold fields. find_it. Qed.
Lemma find_block_hash : find_field tx (str "block_hash") fields = Some set_block_hash.
Proof. unfold fields. find_it. Qed.
Lemma find_genesis_hash : find_field tx (str "genesis_hash") fields = Some set_genesis_hash.
Proof. unfold fields. find_it. Qed.
Lemma find_spec_version : find_field tx (str "spec_version") fields = Some set_spec_version.
Proof. unfold fields. find_it. Qed.
Lemma find_tx_version : find_field tx (str "txVersion") fields = Some set_tx_version.
Proof. unfold fields. find_it. Qed.
Lemma from_json_cleaned t : texts_ok is_bytes t -> tx_typed t -> from_json (to_json t) = Ok (cleaned t).
Proof.
  intros B (T1 & T2 & T3 & T4 & T5 & T6). unfold from_json. rewrite to_json_members by exact B. unfold members. cbn [to_struct].
  Opaque fields str.
  cbn [assign]. rewrite find_sender. unfold set_sender at 1. cbn [to_string to_uint]. rewrite ?parse_uint_format by assumption. cbn [option_map sender recipient amount nonce fee height block_hash genesis_hash spec_version tx_version].
  cbn [assign]. rewrite find_recipient. unfold set_recipient at 1. cbn [to_string to_uint]. rewrite ?parse_uint_format by assumption. cbn [option_map sender recipient amount nonce fee height block_hash genesis_hash spec_version tx_version].
  cbn [assign]. rewrite find_amount. unfold set_amount at 1. cbn [to_string to_uint]. rewrite ?parse_uint_format by assumption. cbn [option_map sender recipient amount nonce fee height block_hash genesis_hash spec_version tx_version].
  cbn [assign]. rewrite find_nonce. unfold set_nonce at 1. cbn [to_string to_uint]. rewrite ?parse_uint_format by assumption. cbn [option_map sender recipient amount nonce fee height block_hash genesis_hash spec_version tx_version].
  cbn [assign]. rewrite find_fee. unfold set_fee at 1. cbn [to_string to_uint]. rewrite ?parse_uint_format by assumption. cbn [option_map sender recipient amount nonce fee height block_hash genesis_hash spec_version tx_version].
  cbn [assign]. rewrite find_height. unfold set_height at 1. cbn [to_string to_uint]. rewrite ?parse_uint_format by assumption. cbn [option_map sender recipient amount nonce fee height block_hash genesis_hash spec_version tx_version].
  cbn [assign]. rewrite find_block_hash. unfold set_block_hash at 1. cbn [to_string to_uint]. rewrite ?parse_uint_format by assumption. cbn [option_map sender recipient amount nonce fee height block_hash genesis_hash spec_version tx_version].
  cbn [assign]. rewrite find_genesis_hash. unfold set_genesis_hash at 1. cbn [to_string to_uint]. rewrite ?parse_uint_format by assumption. cbn [option_map sender recipient amount nonce fee height block_hash genesis_hash spec_version tx_version].
  cbn [assign]. rewrite find_spec_version. unfold set_spec_version at 1. cbn [to_string to_uint]. rewrite ?parse_uint_format by assumption. cbn [option_map sender recipient amount nonce fee height block_hash genesis_hash spec_version tx_version].
  cbn [assign]. rewrite find_tx_version. unfold set_tx_version at 1. cbn [to_string to_uint]. rewrite ?parse_uint_format by assumption. cbn [option_map sender recipient amount nonce fee height block_hash genesis_hash spec_version tx_version].
  reflexivity.
Qed.

Lemma clean_cons a r : a < 128 -> clean (a :: r) = a :: clean r.
Proof. intros H. unfold clean, runes. cbn [length]. rewrite rune_step_runes. unfold rune_step. replace (a <? 128) with true by lia. cbn [skipn flat_map]. unfold utf8 at 1. replace (a <? 128) with true by lia. reflexivity. Qed.
Lemma clean_high b r : 128 <= b < 256 -> exists x t, clean (b :: r) = x :: t /\ 128 <= x.
Proof.
  intros H. unfold clean, runes. cbn [length]. rewrite rune_step_runes. destruct (rune_step b r) as [c n] eqn:R. apply rune_step_ok in R; [|exact H]. cbn [flat_map]. destruct R as [[-> _]|(U & _)].
  - eexists _, _. split; [reflexivity|]. lia.
  - rewrite <- U. eexists _, _. split; [reflexivity|]. lia.
Qed.
Lemma hex_val_high c : 128 <= c -> hex_val c = None.
Proof. intros H. unfold hex_val. repeat match goal with |- context [if ?b then _ else _] => replace b with false by lia end. reflexivity. Qed.
Lemma bad_prefix a b r x r' : hex_val b = None -> hex_val x = None -> hex_prefix (a ++ b :: r) = hex_prefix (a ++ x :: r').
Proof.
  intros B X. induction a as [|c|c d a IH] using pair_ind; cbn [app hex_prefix].
  - rewrite B, X. destruct r, r'; reflexivity.
  - rewrite B, X. destruct (hex_val c); reflexivity.
  - rewrite IH. reflexivity.
Qed.
Lemma bad_decode a b r : hex_val b = None -> hex_decode (a ++ b :: r) = Err.
Proof.
  intros B. induction a as [|c|c d a IH] using pair_ind; cbn [app hex_decode].
  - rewrite B. destruct r; reflexivity.
  - rewrite B. destruct (hex_val c); reflexivity.
  - rewrite IH. destruct (hex_val c), (hex_val d); reflexivity.
Qed.
Lemma clean_shape s : is_bytes s -> clean s = s \/ exists a b r x t, s = a ++ b :: r /\ clean s = a ++ x :: t /\ 128 <= b /\ 128 <= x.
Proof.
  induction s as [|c s IH]; intros B; [left; reflexivity|]. apply is_bytes_cons in B as [Hc B]. unfold is_byte in Hc. destruct (Z_lt_le_dec c 128) as [L|L].
  - rewrite clean_cons by lia. destruct (IH B) as [E|(a & b & r & x & t & -> & E & Hb & Hx)]; [left; congruence|]. right. exists (c :: a), b, r, x, t. rewrite E. auto.
  - destruct (clean_high c s ltac:(lia)) as (x & t & E & Hx). right. exists [], c, s, x, t. auto.
Qed.
Lemma clean_hex s : is_bytes s -> hex_prefix (clean s) = hex_prefix s /\ hex_decode (clean s) = hex_decode s.
Proof.
  intros B. destruct (clean_shape s B) as [E|(a & b & r & x & t & -> & E & Hb & Hx)]; [rewrite E; auto|]. rewrite E. split; [apply bad_prefix; apply hex_val_high; assumption|].
  rewrite !bad_decode by (apply hex_val_high; assumption). reflexivity.
Qed.
Lemma method_bytes_cleaned code t : texts_ok is_bytes t -> method_bytes code (cleaned t) = method_bytes code t.
Proof. intros (A & B & C & D). unfold method_bytes. cbn [recipient amount cleaned]. rewrite (proj2 (clean_hex _ B)). reflexivity. Qed.
Lemma message_cleaned code t : texts_ok is_bytes t -> message code (cleaned t) = message code t.
Proof. intros H. pose proof H as (A & B & C & D). unfold message. rewrite method_bytes_cleaned by exact H. cbn [height nonce fee genesis_hash block_hash spec_version tx_version cleaned]. rewrite (proj2 (clean_hex _ C)), (proj2 (clean_hex _ D)). reflexivity. Qed.
Lemma verify_cleaned verify code t signature : texts_ok is_bytes t -> verify_and_combine verify code (cleaned t) signature = verify_and_combine verify code t signature.
Proof.
  intros H. pose proof H as (A & B & C & D). unfold verify_and_combine, signed_tx. rewrite message_cleaned, method_bytes_cleaned by exact H. cbn [sender height nonce fee cleaned]. rewrite (proj1 (clean_hex _ A)), (proj2 (clean_hex _ A)). reflexivity.
Qed.

Lemma find_cases k g : find_field tx k fields = Some g ->
  (fold_name k = fold_name (str "sender_pubkey") /\ g = set_sender) \/ (fold_name k = fold_name (str "recipient_pubkey") /\ g = set_recipient) \/
  (fold_name k = fold_name (str "amount") /\ g = set_amount) \/ (fold_name k = fold_name (str "nonce") /\ g = set_nonce) \/ (fold_name k = fold_name (str "fee") /\ g = set_fee) \/
  (fold_name k = fold_name (str "block_height") /\ g = set_height) \/ (fold_name k = fold_name (str "block_hash") /\ g = set_block_hash) \/
  (fold_name k = fold_name (str "genesis_hash") /\ g = set_genesis_hash) \/ (fold_name k = fold_name (str "spec_version") /\ g = set_spec_version) \/ (fold_name k = fold_name (str "txVersion") /\ g = set_tx_version).
Proof.
  Transparent fields. intros F. apply find_field_in in F as (n & I & E). unfold fields in I. cbn [In] in I.
  destruct I as [I|[I|[I|[I|[I|[I|[I|[I|[I|[I|[]]]]]]]]]]]; pose proof (f_equal fst I) as I1; pose proof (f_equal snd I) as I2; cbn [fst snd] in I1, I2; rewrite <- I1 in E; rewrite <- I2.
  - left; auto.
  - do 1 right; left; auto.
  - do 2 right; left; auto.
  - do 3 right; left; auto.
  - do 4 right; left; auto.
  - do 5 right; left; auto.
  - do 6 right; left; auto.
  - do 7 right; left; auto.
  - do 8 right; left; auto.
  - do 9 right; auto.
Qed.

Lemma parse_uint_iff bits lit n : parse_uint bits lit = Some n <-> lit <> [] /\ Forall (fun c => 48 <= c <= 57) lit /\ digits_num lit = n /\ n < 2 ^ bits.
Proof.
  unfold parse_uint, dec_value. destruct lit as [|c r] eqn:El; [split; [discriminate|intros [H _]; contradiction]|]. rewrite <- El. change (fold_left (fun a d => a * 10 + (d - 48)) lit 0) with (digits_num lit). split.
  - destruct (forallb is_digit lit) eqn:F; [|discriminate]. destruct (digits_num lit <? 2 ^ bits) eqn:L; [|discriminate]. intros E. assert (digits_num lit = n) by congruence. subst n. split; [subst lit; discriminate|]. split; [|split; [reflexivity|lia]].
    apply Forall_forall. intros x I. rewrite forallb_forall in F. specialize (F x I). unfold is_digit in F. lia.
  - intros (_ & F & E & L). assert (G : forallb is_digit lit = true) by (apply forallb_forall; intros x I; rewrite Forall_forall in F; specialize (F x I); cbv beta in F; unfold is_digit; lia). rewrite G. subst n. replace (digits_num lit <? 2 ^ bits) with true by lia. reflexivity.
Qed.
Lemma option_map_ok A B (f : A -> B) o y : option_map f o = Some y -> exists x, o = Some x /\ y = f x.
Proof. destruct o as [x|]; [|discriminate]. intros E. exists x. split; [reflexivity|]. cbn [option_map] in E. congruence. Qed.
Ltac names E B := rewrite E in B; match type of B with beq ?a ?b = ?c => let x := eval vm_compute in (beq a b) in change (x = c) in B; first [discriminate B|clear B] end.
Ltac setters G := let x := fresh "x" in let C := fresh "C" in first [unfold set_sender in G|unfold set_recipient in G|unfold set_amount in G|unfold set_nonce in G|unfold set_fee in G|unfold set_height in G|unfold set_block_hash in G|unfold set_genesis_hash in G|unfold set_spec_version in G|unfold set_tx_version in G];
  apply option_map_ok in G as (x & C & G); rewrite G; cbn [sender recipient amount nonce fee height block_hash genesis_hash spec_version tx_version]; first [exact C|reflexivity].
Ltac here := let F := fresh in let B := fresh in let G := fresh in intros ? ? ? ? ? F B G; apply find_cases in F as [[F ->]|[[F ->]|[[F ->]|[[F ->]|[[F ->]|[[F ->]|[[F ->]|[[F ->]|[[F ->]|[F ->]]]]]]]]]]; names F B; setters G.
Ltac known := let B := fresh in let F := fresh in intros ? B F; apply beq_eq in B; revert B; eapply (find_field_none _ _ _ F); unfold fields; cbn [In]; eauto 15 using or_introl, or_intror.
Lemma to_string_null x : to_string VNull x = Some x. Proof. reflexivity. Qed.
Lemma to_string_over v x y : v <> VNull -> to_string v x = to_string v y. Proof. destruct v; intros H; try reflexivity. contradiction. Qed.
Lemma to_uint_null bits x : to_uint bits VNull x = Some x. Proof. reflexivity. Qed.
Lemma to_uint_over bits v x y : v <> VNull -> to_uint bits v x = to_uint bits v y. Proof. destruct v; intros H; try reflexivity. contradiction. Qed.
Lemma given_text ms name (s : list Z) : match last_value name ms with None => s = [] | Some v => forall x, to_string v x = Some s end -> text_given ms name s.
Proof.
  unfold text_given. destruct (last_value name ms) as [v|]; [|auto]. intros H. pose proof (H []) as H0. pose proof (H [1]) as H1. destruct v; cbn [to_string] in H0, H1; try discriminate; congruence.
Qed.
Lemma given_number bits ms name n : match last_value name ms with None => n = 0 | Some v => forall x, to_uint bits v x = Some n end -> number_given bits ms name n.
Proof.
  unfold number_given. destruct (last_value name ms) as [v|]; [|auto]. intros H. pose proof (H 0) as H0. pose proof (H 1) as H1. destruct v; cbn [to_uint] in H0, H1; try discriminate; [congruence|]. eexists. split; [reflexivity|]. apply parse_uint_iff, H0.
Qed.
Lemma last_sender ms s t : assign tx fields ms s = Some t -> match last_value (str "sender_pubkey") ms with None => sender t = sender s | Some v => forall x, to_string v x = Some (sender t) end.
Proof. apply assign_last; [here|here|known|apply to_string_null|apply to_string_over]. Qed.
Lemma last_recipient ms s t : assign tx fields ms s = Some t -> match last_value (str "recipient_pubkey") ms with None => recipient t = recipient s | Some v => forall x, to_string v x = Some (recipient t) end.
Proof. apply assign_last; [here|here|known|apply to_string_null|apply to_string_over]. Qed.
Lemma last_amount ms s t : assign tx fields ms s = Some t -> match last_value (str "amount") ms with None => amount t = amount s | Some v => forall x, (to_uint 64) v x = Some (amount t) end.
Proof. apply assign_last; [here|here|known|apply to_uint_null|apply to_uint_over]. Qed.
Lemma last_nonce ms s t : assign tx fields ms s = Some t -> match last_value (str "nonce") ms with None => nonce t = nonce s | Some v => forall x, (to_uint 64) v x = Some (nonce t) end.
Proof. apply assign_last; [here|here|known|apply to_uint_null|apply to_uint_over]. Qed.
Lemma last_fee ms s t : assign tx fields ms s = Some t -> match last_value (str "fee") ms with None => fee t = fee s | Some v => forall x, (to_uint 64) v x = Some (fee t) end.
Proof. apply assign_last; [here|here|known|apply to_uint_null|apply to_uint_over]. Qed.
Lemma last_height ms s t : assign tx fields ms s = Some t -> match last_value (str "block_height") ms with None => height t = height s | Some v => forall x, (to_uint 64) v x = Some (height t) end.
Proof. apply assign_last; [here|here|known|apply to_uint_null|apply to_uint_over]. Qed.
Lemma last_block_hash ms s t : assign tx fields ms s = Some t -> match last_value (str "block_hash") ms with None => block_hash t = block_hash s | Some v => forall x, to_string v x = Some (block_hash t) end.
Proof. apply assign_last; [here|here|known|apply to_string_null|apply to_string_over]. Qed.
Lemma last_genesis_hash ms s t : assign tx fields ms s = Some t -> match last_value (str "genesis_hash") ms with None => genesis_hash t = genesis_hash s | Some v => forall x, to_string v x = Some (genesis_hash t) end.
Proof. apply assign_last; [here|here|known|apply to_string_null|apply to_string_over]. Qed.
Lemma last_spec_version ms s t : assign tx fields ms s = Some t -> match last_value (str "spec_version") ms with None => spec_version t = spec_version s | Some v => forall x, (to_uint 32) v x = Some (spec_version t) end.
Proof. apply assign_last; [here|here|known|apply to_uint_null|apply to_uint_over]. Qed.
Lemma last_tx_version ms s t : assign tx fields ms s = Some t -> match last_value (str "txVersion") ms with None => tx_version t = tx_version s | Some v => forall x, (to_uint 32) v x = Some (tx_version t) end.
Proof. apply assign_last; [here|here|known|apply to_uint_null|apply to_uint_over]. Qed.
Lemma string_fits v old : (exists x, to_string v old = Some x) <-> v = VNull \/ exists s, v = VStr s.
Proof. split; [intros [x E]; destruct v; try discriminate; eauto|intros [->|[s ->]]; cbn [to_string]; eauto]. Qed.
Lemma uint_fits bits v old : (exists x, to_uint bits v old = Some x) <-> v = VNull \/ exists lit, v = VNum lit /\ lit <> [] /\ Forall (fun c => 48 <= c <= 57) lit /\ digits_num lit < 2 ^ bits.
Proof.
  split.
  - intros [x E]. destruct v; try discriminate; [auto|]. right. cbn [to_uint] in E. apply parse_uint_iff in E as (N & F & D & L). rewrite <- D in L. eauto.
  - intros [->|(lit & -> & N & F & L)]; cbn [to_uint]; [eauto|]. exists (digits_num lit). apply parse_uint_iff. auto.
Qed.
Lemma option_map_ex A B (f : A -> B) o : (exists y, option_map f o = Some y) <-> exists x, o = Some x.
Proof. split; [intros [y E]; apply option_map_ok in E as (x & -> & _); eauto|intros [x ->]; cbn [option_map]; eauto]. Qed.
Ltac not_name E1 E2 := let H := fresh in pose proof (eq_trans (eq_sym E1) E2) as H; apply (f_equal (fun a => a)) in H; match type of H with ?a = ?b => let x := eval vm_compute in (beq a b) in match x with false => exfalso; assert (beq a b = true) as H' by (apply beq_eq; exact H); vm_compute in H'; discriminate H' end end.
Ltac one_text F := match goal with |- (exists x, ?g _ _ = Some x) <-> _ => unfold g end; rewrite option_map_ex, string_fits; split;
  [let N := fresh in let I := fresh in let E := fresh in intros N; split; cbn [fst snd];
    [intros name I E; exact N|intros name bits I E; unfold number_names in I; cbn [In] in I; destruct I as [I|[I|[I|[I|[I|[I|[]]]]]]]; apply (f_equal fst) in I; cbn [fst] in I; rewrite <- I in E; not_name E F]
  |let N := fresh in intros [N _]; cbn [fst snd] in N; refine (N _ _ F); unfold text_names; cbn [In]; tauto].
Ltac one_number F := match goal with |- (exists x, ?g _ _ = Some x) <-> _ => unfold g end; rewrite option_map_ex, uint_fits; split;
  [let N := fresh in let I := fresh in let E := fresh in intros N; split; cbn [fst snd];
    [intros name I E; unfold text_names in I; cbn [In] in I; destruct I as [I|[I|[I|[I|[]]]]]; rewrite <- I in E; not_name E F
    |intros name bits I E; unfold number_names in I; cbn [In] in I; destruct I as [I|[I|[I|[I|[I|[I|[]]]]]]]; let J := fresh in pose proof (f_equal snd I) as J; apply (f_equal fst) in I; cbn [fst snd] in I, J; rewrite <- I in E; first [not_name E F|rewrite <- J; exact N]]
  |let N := fresh in intros [_ N]; cbn [fst snd] in N; refine (N _ _ _ F); unfold number_names; cbn [In]; tauto].
Lemma set_fits k v g s : find_field tx k fields = Some g -> (exists s', g v s = Some s') <-> fits (k, v).
Proof.
  intros F. apply find_cases in F as [[F ->]|[[F ->]|[[F ->]|[[F ->]|[[F ->]|[[F ->]|[[F ->]|[[F ->]|[[F ->]|[F ->]]]]]]]]]].
  - one_text F.
  - one_text F.
  - one_number F.
  - one_number F.
  - one_number F.
  - one_number F.
  - one_text F.
  - one_text F.
  - one_number F.
  - one_number F.
Qed.
Lemma unknown_fits k v : find_field tx k fields = None -> fits (k, v).
Proof.
  intros F. pose proof (find_field_none _ _ _ F) as N. split; cbn [fst snd]; intros name; [intros I E|intros bits I E]; exfalso; unfold text_names, number_names in I; cbn [In] in I.
  - destruct I as [I|[I|[I|[I|[]]]]]; rewrite <- I in E; revert E; eapply N; unfold fields; cbn [In]; eauto 15 using or_introl, or_intror.
  - destruct I as [I|[I|[I|[I|[I|[I|[]]]]]]]; apply (f_equal fst) in I; cbn [fst] in I; rewrite <- I in E; revert E; eapply N; unfold fields; cbn [In]; eauto 15 using or_introl, or_intror.
Qed.
Lemma assign_fits ms : forall s, (exists t, assign tx fields ms s = Some t) <-> Forall fits ms.
Proof.
  induction ms as [|[k v] r IH]; intros s; cbn [assign]; [split; [constructor|eauto]|]. destruct (find_field tx k fields) as [g|] eqn:F.
  - pose proof (set_fits k v g s F) as W. split.
    + intros [t E]. destruct (g v s) as [s'|] eqn:G; [|discriminate]. constructor; [apply W; eauto|]. apply (IH s'). eauto.
    + intros A. apply Forall_cons_iff in A as [A1 A2]. apply W in A1 as [s' G]. rewrite G. apply IH, A2.
  - split.
    + intros E. constructor; [apply unknown_fits, F|]. apply (IH s), E.
    + intros A. apply Forall_cons_iff in A as [_ A2]. apply IH, A2.
Qed.

Lemma signed_exists code t (sig m : bytes) from : tx_typed t -> zlen code < 2 ^ 32 -> hex_decode (sender t) = Ok from -> zlen from = 32 -> zlen sig = 64 -> signing_payload code t m -> exists out, signed_extrinsic code t sig out.
Proof.
  intros T Lc D Lf Ls (call & e & g & b & C & E & _). pose proof (call_len _ _ _ T C) as L1. pose proof (extra_len _ _ T E) as L2.
  destruct (encode_scale (zlen ([0x84; 0x00] ++ from ++ [0x00] ++ sig ++ e ++ call))) as (l & _ & _ & Sc).
  { rewrite !zlen_app, Lf, Ls. change (zlen [132; 0]) with 2. change (zlen [0]) with 1. pose proof (zlen_nonneg e). pose proof (zlen_nonneg call). lia. }
  exists (l ++ ([0x84; 0x00] ++ from ++ [0x00] ++ sig ++ e ++ call)), call, e, from, l. eexists. split; [exact C|]. split; [exact E|]. split; [exact D|]. split; [exact Lf|]. split; [reflexivity|]. split; [exact Sc|reflexivity].
Qed.

(** ** Theorems *)
(** The text of a transaction is read back as the transaction; a text field that is not UTF-8 comes back with U+FFFD in its place. *)
Theorem polkadot_json_round_trip : forall t, tx_typed t -> texts_ok valid_text t -> from_json (to_json t) = Ok t.
Proof.
  intros t T (A & B & C & D). rewrite from_json_cleaned; [|repeat split; apply valid_bytes; assumption|exact T].
  unfold cleaned. rewrite !clean_valid by assumption. destruct t; reflexivity.
Qed.
(** Which texts are accepted, and what is read from them. *)
Theorem polkadot_json_accepted_iff : forall text, (exists t, from_json text = Ok t) <-> is_json text VNull \/ exists ms, is_json text (VObj ms) /\ Forall fits ms.
Proof.
  intros text. setoid_rewrite <- unjson_iff_json. unfold from_json. destruct (unjson text) as [v|]; [|split; [intros [t E]; discriminate|intros [E|(ms & E & _)]; discriminate]]. split.
  - intros [t E]. destruct (to_struct tx fields v zero) as [t'|] eqn:S; [|discriminate]. destruct v; try discriminate S; [left; reflexivity|]. right. eexists. split; [reflexivity|]. cbn [to_struct] in S. apply (assign_fits _ zero). eauto.
  - intros [E|(ms & E & F)].
    + assert (v = VNull) by congruence. subst v. cbn [to_struct]. eauto.
    + assert (v = VObj ms) by congruence. subst v. cbn [to_struct]. destruct (proj2 (assign_fits ms zero) F) as [t S]. rewrite S. eauto.
Qed.
Theorem polkadot_json_last_member : forall text ms t, is_json text (VObj ms) -> from_json text = Ok t ->
  text_given ms (str "sender_pubkey") (sender t) /\ text_given ms (str "recipient_pubkey") (recipient t) /\ number_given 64 ms (str "amount") (amount t) /\
  number_given 64 ms (str "nonce") (nonce t) /\ number_given 64 ms (str "fee") (fee t) /\ number_given 64 ms (str "block_height") (height t) /\
  text_given ms (str "block_hash") (block_hash t) /\ text_given ms (str "genesis_hash") (genesis_hash t) /\
  number_given 32 ms (str "spec_version") (spec_version t) /\ number_given 32 ms (str "txVersion") (tx_version t).
Proof.
  intros text ms t U. apply unjson_iff_json in U. unfold from_json. rewrite U. cbn [to_struct]. destruct (assign tx fields ms zero) as [t'|] eqn:S; [|discriminate]. intros E. assert (t' = t) by congruence. subst t'.
  repeat match goal with |- _ /\ _ => split end; first [apply given_text|apply given_number].
  - exact (last_sender _ _ _ S).
  - exact (last_recipient _ _ _ S).
  - exact (last_amount _ _ _ S).
  - exact (last_nonce _ _ _ S).
  - exact (last_fee _ _ _ S).
  - exact (last_height _ _ _ S).
  - exact (last_block_hash _ _ _ S).
  - exact (last_genesis_hash _ _ _ S).
  - exact (last_spec_version _ _ _ S).
  - exact (last_tx_version _ _ _ S).
Qed.
(** Whatever is signed for a created transaction, combining its text gives what the transaction itself gives. *)
Theorem polkadot_created_text_combines : forall verify code t text msg signature, tx_typed t -> texts_ok is_bytes t ->
  create code t = Ok (text, msg) -> message code t = Ok msg /\ verify_text verify code text signature = verify_and_combine verify code t signature.
Proof.
  intros verify code t text msg signature T B. unfold create. destruct (message code t) as [m| |] eqn:M; cbn [bind]; try discriminate. intros E. assert (to_json t = text /\ m = msg) as [<- <-] by (split; congruence). split; [reflexivity|].
  unfold verify_text. rewrite from_json_cleaned by assumption. apply verify_cleaned, B.
Qed.
(** Create, sign, combine. *)
Theorem polkadot_text_flow : forall sign verify pub key code t text msg sig,
  (forall k m s, sign k m = Some s -> verify (pub k) m s = true /\ zlen s = 64 /\ is_bytes s) ->
  tx_typed t -> exact_values t -> zlen code < 2 ^ 32 -> texts_ok is_bytes t -> is_bytes (pub key) -> zlen (pub key) = 32 -> sender t = hex_encode (pub key) ->
  create code t = Ok (text, msg) -> sign_message sign msg key = Ok sig ->
  exists out, signed_extrinsic code t sig out /\ verify_text verify code text (hex_encode sig) = Ok (48 :: 120 :: hex_encode out, true).
Proof.
  intros sign verify pub key code t text msg sig Scheme T X Lc B Bp Lp Es C S. destruct (polkadot_created_text_combines verify code t text msg (hex_encode sig) T B C) as [M V]. rewrite V.
  pose proof (proj1 (message_iff _ _ _ T X) M) as (m & P & Em). assert (Bm : is_bytes m) by (eapply signing_bytes; eassumption).
  unfold sign_message in S. rewrite Em, hex_decode_encode in S by exact Bm. cbn [bind] in S. destruct (zlen m =? 0); [discriminate|]. destruct (zlen key =? 32); [|discriminate]. cbn [negb] in S. destruct (sign key m) as [s|] eqn:Sg; [|discriminate].
  assert (s = sig) by congruence. subst s. destruct (Scheme _ _ _ Sg) as (V1 & L1 & B1).
  assert (D : hex_decode (sender t) = Ok (pub key)) by (rewrite Es; apply hex_decode_encode, Bp).
  destruct (signed_exists code t sig m (pub key) T Lc D Lp L1 P) as [out O]. exists out. split; [exact O|].
  apply (proj2 (combined_transaction_iff verify code t (hex_encode sig) _ (pub key) T X Lc D Lp)). exists m, sig, out.
  split; [exact P|]. split; [apply hex_decode_encode, B1|]. auto.
Qed.

(** ** The hypotheses are met *)
Example ex_texts : texts_ok valid_text ex_tx /\ texts_ok is_bytes ex_tx.
Proof.
  assert (V : texts_ok valid_text ex_tx) by (repeat split; cbn [sender recipient block_hash genesis_hash ex_tx]; apply ascii_valid, hex_text_ascii; repeat constructor; unfold is_byte; lia).
  split; [exact V|]. destruct V as (A & B & C & D). repeat split; apply valid_bytes; assumption.
Qed.
Example ex_read_back : from_json (to_json ex_tx) = Ok ex_tx.
Proof. apply polkadot_json_round_trip; [apply ex_tx_ok|apply ex_texts]. Qed.
(** The names are compared without case, null changes nothing, the last member counts. *)
Example ex_last : from_json (str "{""fee"":3,""x"":[],""FEE"":5,""fee"":null}") = Ok {| sender := []; recipient := []; amount := 0; nonce := 0; fee := 5; height := 0; block_hash := []; genesis_hash := []; spec_version := 0; tx_version := 0 |}.
Proof. vm_compute. reflexivity. Qed.
Example ex_refused : from_json (str "{""fee"":-3}") = Err /\ from_json (str "{""fee"":""3""}") = Err /\ from_json (str "{""spec_version"":4294967296}") = Err /\ from_json (str "{""fee"":1e3}") = Err.
Proof. repeat split; vm_compute; reflexivity. Qed.
Definition ex_sign (k m : bytes) : option bytes := Some (repeat 9 64).
Definition ex_verify (p m s : bytes) : bool := beq s (repeat 9 64).
Example ex_flow : exists text msg sig out, create ex_code ex_tx = Ok (text, msg) /\ sign_message ex_sign msg (repeat 8 32) = Ok sig /\ verify_text ex_verify ex_code text (hex_encode sig) = Ok (48 :: 120 :: hex_encode out, true).
Proof.
  assert (M : exists msg, create ex_code ex_tx = Ok (to_json ex_tx, msg) /\ sign_message ex_sign msg (repeat 8 32) = Ok (repeat 9 64)) by (unfold create; eexists; split; [replace (message ex_code ex_tx) with (Ok (match message ex_code ex_tx with Ok m => m | _ => [] end)) by (vm_compute; reflexivity); cbn [bind]; reflexivity|vm_compute; reflexivity]).
  destruct M as (msg & C & S). exists (to_json ex_tx), msg, (repeat 9 64).
  destruct (polkadot_text_flow ex_sign ex_verify (fun _ => repeat 1 32) (repeat 8 32) ex_code ex_tx (to_json ex_tx) msg (repeat 9 64)) as (out & _ & V).
  - intros k m s E. assert (s = repeat 9 64) as -> by (unfold ex_sign in E; congruence). split; [reflexivity|]. split; [reflexivity|]. repeat constructor; unfold is_byte; lia.
  - apply ex_tx_ok.
  - apply ex_tx_ok.
  - vm_compute. reflexivity.
  - apply ex_texts.
  - repeat constructor; unfold is_byte; lia.
  - reflexivity.
  - reflexivity.
  - exact C.
  - exact S.
  - exists out. auto.
Qed.
Print Assumptions polkadot_json_round_trip.
Print Assumptions polkadot_json_accepted_iff.
Print Assumptions polkadot_json_last_member.
Print Assumptions polkadot_created_text_combines.
Print Assumptions polkadot_text_flow.
