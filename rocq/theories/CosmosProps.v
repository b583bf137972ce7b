(** C101-C104: Cosmos and Evaio transactions. *)
From Coq Require Import String ZArith List Bool Lia ZifyBool ZifyNat.
From Verif Require Import Go GoFacts GoJson Json SigModel SigNormProps CosmosModel Toy Base58CheckSpec.
Import ListNotations.
Open Scope Z_scope.
Ltac Zify.zify_post_hook ::= idtac.

(** ** Specification *)
(** All texts of a transaction are byte strings (in Go every string is); they are good when they are valid UTF-8. *)
Section Each.
Variable P : list Z -> Prop.
Definition coin_all (c : coin) : Prop := P (c_amount c) /\ P (c_denom c).
Definition coins_all (l : coins) : Prop := match l with None => True | Some l => Forall coin_all l end.
Definition fee_all (f : fee) : Prop := coins_all (f_amount f) /\ P (f_gas f).
Definition message_all (m : message) : Prop := P (m_type m) /\ coins_all (m_amount (m_value m)) /\ P (m_from (m_value m)) /\ P (m_to (m_value m)).
Definition messages_all (l : option (list message)) : Prop := match l with None => True | Some l => Forall message_all l end.
Definition tx_all (t : tx) : Prop :=
  P (t_account t) /\ P (t_chain t) /\ fee_all (t_fee t) /\ P (t_memo t) /\ messages_all (t_msgs t) /\ P (t_sequence t).
End Each.
(** What the texts have to say, as JSON values; [txt] is the text of a Go string. *)
Definition txt (s : list Z) : json := JStr (clean s).
Definition arr {A} (f : A -> json) (l : option (list A)) : json := match l with None => JNull | Some l => JArr (map f l) end.
Definition coin_value (c : coin) : json := JObj [(str "amount", txt (c_amount c)); (str "denom", txt (c_denom c))].
Definition fee_value (f : fee) : json := JObj [(str "amount", arr coin_value (f_amount f)); (str "gas", txt (f_gas f))].
Definition message_value (m : message) : json :=
  JObj [(str "type", txt (m_type m));
        (str "value", JObj [(str "amount", arr coin_value (m_amount (m_value m))); (str "from_address", txt (m_from (m_value m))); (str "to_address", txt (m_to (m_value m)))])].
Definition document (t : tx) : json :=
  JObj [(str "account_number", txt (t_account t)); (str "chain_id", txt (t_chain t)); (str "fee", fee_value (t_fee t)); (str "memo", txt (t_memo t));
        (str "msgs", arr message_value (t_msgs t)); (str "sequence", txt (t_sequence t))].
(** Canonical form: the names in every object are in increasing order. *)
Fixpoint text_lt (a b : list Z) : bool :=
  match a, b with
  | [], _ :: _ => true
  | _, [] => false
  | x :: a, y :: b => (x <? y) || ((x =? y) && text_lt a b)
  end.
Fixpoint increasing (l : list (list Z)) : bool := match l with a :: ((b :: _) as r) => text_lt a b && increasing r | _ => true end.
Inductive canonical : json -> Prop :=
| can_null : canonical JNull
| can_str s : canonical (JStr s)
| can_arr l : Forall canonical l -> canonical (JArr l)
| can_obj l : increasing (map fst l) = true -> Forall canonical (map snd l) -> canonical (JObj l).

(** ** Lemmas *)
Ltac bs := match goal with |- is_bytes ?x => let y := eval vm_compute in x in change (is_bytes y) end; repeat (apply Forall_cons; [unfold is_byte; lia|]); apply Forall_nil.
Lemma jr_arr {A} (P : A -> Prop) (w : A -> list Z) (v : A -> json) (l : option (list A)) :
  (forall a, P a -> jr (w a) (v a)) -> match l with None => True | Some l => Forall P l end -> jr (go_array (option_map (map w) l)) (arr v l).
Proof.
  intros H F. destruct l as [l|]; [|exact jr_null]. cbn [option_map arr]. apply jr_array. induction F; cbn [map]; constructor; auto.
Qed.
Ltac fields := apply jr_object; repeat match goal with |- Forall2 _ [] [] => constructor | |- Forall2 _ (_ :: _) (_ :: _) => constructor; [split; [reflexivity|split; [reflexivity|]]|] end.
Lemma jr_coin c : coin_all is_bytes c -> jr (coin_json c) (coin_value c).
Proof. intros [A B]. fields; apply jr_string; assumption. Qed.
Lemma jr_coins l : coins_all is_bytes l -> jr (coins_json l) (arr coin_value l).
Proof. intros H. apply (jr_arr (coin_all is_bytes)); [apply jr_coin|exact H]. Qed.
Lemma jr_fee f : fee_all is_bytes f -> jr (fee_json f) (fee_value f).
Proof. intros [A B]. fields; [apply jr_coins; exact A|apply jr_string; exact B]. Qed.
Lemma jr_message m : message_all is_bytes m -> jr (message_json m) (message_value m).
Proof. intros (A & B & C & D). fields; [apply jr_string; exact A|]. unfold msg_send_json. fields; [apply jr_coins; exact B|apply jr_string; exact C|apply jr_string; exact D]. Qed.
Lemma jr_messages l : messages_all is_bytes l -> jr (messages_json l) (arr message_value l).
Proof. intros H. apply (jr_arr (message_all is_bytes)); [apply jr_message|exact H]. Qed.
Lemma can_arr' {A} (v : A -> json) l : (forall a, canonical (v a)) -> canonical (arr v l).
Proof. intros H. destruct l as [l|]; constructor. apply Forall_forall. intros x I. apply in_map_iff in I as (a & <- & _). apply H. Qed.
Ltac canon := apply can_obj; [reflexivity|cbn [map snd]; repeat (constructor; [try (unfold txt; apply can_str)|]); try constructor].
Lemma can_coin c : canonical (coin_value c). Proof. canon. Qed.
Lemma can_message m : canonical (message_value m).
Proof. apply can_obj; [reflexivity|]. cbn [map snd]. constructor; [apply can_str|]. constructor; [|constructor]. apply can_obj; [reflexivity|]. cbn [map snd]. constructor; [apply can_arr', can_coin|]. constructor; [apply can_str|]. constructor; [apply can_str|constructor]. Qed.
Lemma can_document t : canonical (document t).
Proof.
  apply can_obj; [reflexivity|]. cbn [map snd]. constructor; [apply can_str|]. constructor; [apply can_str|]. constructor.
  { apply can_obj; [reflexivity|]. cbn [map snd]. constructor; [apply can_arr', can_coin|]. constructor; [apply can_str|constructor]. }
  constructor; [apply can_str|]. constructor; [apply can_arr', can_message|]. constructor; [apply can_str|constructor].
Qed.
Definition good (s : list Z) : Prop := is_bytes s /\ valid_text s.
Lemma txt_inj a b : good a -> good b -> txt a = txt b -> a = b.
Proof. intros [_ A] [_ B] E. injection E as E. rewrite (clean_valid _ A), (clean_valid _ B) in E. exact E. Qed.
Lemma arr_inj {A} (P : A -> Prop) (v : A -> json) l k :
  (forall a b, P a -> P b -> v a = v b -> a = b) -> match l with None => True | Some l => Forall P l end -> match k with None => True | Some k => Forall P k end -> arr v l = arr v k -> l = k.
Proof.
  intros H F G E. destruct l as [l|], k as [k|]; try discriminate; [|reflexivity]. cbn [arr] in E. injection E as E. f_equal. revert k G E. induction F as [|a l Pa F IH]; intros [|b k] G E; try discriminate; [reflexivity|].
  inversion G; subst. cbn [map] in E. injection E as E1 E2. f_equal; [apply H; assumption|apply IH; assumption].
Qed.
Lemma coin_inj a b : coin_all good a -> coin_all good b -> coin_value a = coin_value b -> a = b.
Proof. destruct a as [x y], b as [x' y']. intros [A1 A2] [B1 B2] E. cbn [c_amount c_denom] in *. unfold coin_value in E. cbn [c_amount c_denom] in E. assert (E1 : txt x = txt x') by congruence. assert (E2 : txt y = txt y') by congruence. f_equal; apply txt_inj; assumption. Qed.
Lemma fee_inj a b : fee_all good a -> fee_all good b -> fee_value a = fee_value b -> a = b.
Proof.
  destruct a as [fa fg], b as [fa' fg']. intros [A1 A2] [B1 B2] E. cbn [f_amount f_gas] in *. unfold fee_value in E. cbn [f_amount f_gas] in E.
  assert (E1 : arr coin_value fa = arr coin_value fa') by congruence. assert (E2 : txt fg = txt fg') by congruence. f_equal; [|apply txt_inj; assumption]. eapply arr_inj; [apply coin_inj|exact A1|exact B1|exact E1].
Qed.
Lemma message_inj a b : message_all good a -> message_all good b -> message_value a = message_value b -> a = b.
Proof.
  destruct a as [ty [am fr to]], b as [ty' [am' fr' to']]. intros (A1 & A2 & A3 & A4) (B1 & B2 & B3 & B4) E. cbn [m_type m_value m_amount m_from m_to] in *. unfold message_value in E. cbn [m_type m_value m_amount m_from m_to] in E.
  assert (E1 : arr coin_value am = arr coin_value am') by congruence. assert (E2 : txt ty = txt ty') by congruence. assert (E3 : txt fr = txt fr') by congruence. assert (E4 : txt to = txt to') by congruence.
  f_equal; [apply txt_inj; assumption|]. f_equal; [|apply txt_inj; assumption|apply txt_inj; assumption]. eapply arr_inj; [apply coin_inj|exact A2|exact B2|exact E1].
Qed.
Lemma document_inj a b : tx_all good a -> tx_all good b -> document a = document b -> a = b.
Proof.
  destruct a as [ac ch fe me ms se], b as [ac' ch' fe' me' ms' se']. intros (A1 & A2 & A3 & A4 & A5 & A6) (B1 & B2 & B3 & B4 & B5 & B6) E. cbn [t_account t_chain t_fee t_memo t_msgs t_sequence] in *. unfold document in E. cbn [t_account t_chain t_fee t_memo t_msgs t_sequence] in E.
  assert (E1 : txt ac = txt ac') by congruence. assert (E2 : txt ch = txt ch') by congruence. assert (E3 : fee_value fe = fee_value fe') by congruence. assert (E4 : txt me = txt me') by congruence. assert (E5 : arr message_value ms = arr message_value ms') by congruence. assert (E6 : txt se = txt se') by congruence.
  f_equal; try (apply txt_inj; assumption); [apply fee_inj; assumption|]. eapply arr_inj; [apply message_inj|exact A5|exact B5|exact E5].
Qed.
Section Weaken.
Variables P Q : list Z -> Prop.
Hypothesis H : forall s, P s -> Q s.
Lemma coins_weaken l : coins_all P l -> coins_all Q l.
Proof. destruct l as [l|]; [|auto]. cbn. apply Forall_impl. intros c [A B]. split; auto. Qed.
Lemma tx_weaken t : tx_all P t -> tx_all Q t.
Proof.
  intros (A1 & A2 & [A3 A3'] & A4 & A5 & A6). split; [auto|]. split; [auto|]. split; [split; [apply coins_weaken; auto|auto]|]. split; [auto|]. split; [|auto].
  destruct (t_msgs t) as [l|]; [|exact I]. cbn in *. revert A5. apply Forall_impl. intros m (B1 & B2 & B3 & B4). split; [auto|]. split; [apply coins_weaken; exact B2|]. auto.
Qed.
End Weaken.
Lemma jr_tx t : tx_all is_bytes t -> jr (tx_json t) (document t).
Proof.
  intros (A1 & A2 & A3 & A4 & A5 & A6). unfold tx_json, document. fields; try (apply jr_string; assumption); [apply jr_fee; exact A3|apply jr_messages; exact A5].
Qed.
Lemma tx_json_bytes t : tx_all is_bytes t -> is_bytes (tx_json t).
Proof.
  intros (A1 & A2 & [A3 A3'] & A4 & A5 & A6). assert (CB : forall l, coins_all is_bytes l -> is_bytes (coins_json l)).
  { intros [l|] H; [|apply go_array_bytes; exact I]. apply go_array_bytes. cbn [option_map]. cbn [coins_all] in H. induction H as [|c l [Ha Hb] H IH]; cbn [map]; constructor; [|exact IH].
    apply go_object_bytes. constructor; [split; cbn [fst snd]; [bs|apply go_string_bytes, Ha]|]. constructor; [split; cbn [fst snd]; [bs|apply go_string_bytes, Hb]|constructor]. }
  apply go_object_bytes. constructor; [split; cbn [fst snd]; [bs|apply go_string_bytes, A1]|]. constructor; [split; cbn [fst snd]; [bs|apply go_string_bytes, A2]|]. constructor; [split; cbn [fst snd]; [bs|]|].
  { apply go_object_bytes. constructor; [split; cbn [fst snd]; [bs|apply CB, A3]|]. constructor; [split; cbn [fst snd]; [bs|apply go_string_bytes, A3']|constructor]. }
  constructor; [split; cbn [fst snd]; [bs|apply go_string_bytes, A4]|]. constructor; [split; cbn [fst snd]; [bs|]|]; [|constructor; [split; cbn [fst snd]; [bs|apply go_string_bytes, A6]|constructor]].
  unfold messages_json. apply go_array_bytes. destruct (t_msgs t) as [l|]; [|exact I]. cbn [option_map messages_all] in *. induction A5 as [|m l (B1 & B2 & B3 & B4) H IH]; cbn [map]; constructor; [|exact IH].
  apply go_object_bytes. constructor; [split; cbn [fst snd]; [bs|apply go_string_bytes, B1]|]. constructor; [split; cbn [fst snd]; [bs|]|constructor]. apply go_object_bytes. constructor; [split; cbn [fst snd]; [bs|apply CB, B2]|]. constructor; [split; cbn [fst snd]; [bs|apply go_string_bytes, B3]|]. constructor; [split; cbn [fst snd]; [bs|apply go_string_bytes, B4]|constructor].
Qed.

(** ** C101 *)
(** The text to be signed is one JSON value: the document of the transaction, in canonical form, and the hash is that of the text. *)
Theorem cosmos_document : forall sha256 t, tx_all is_bytes t -> exists text,
  create_empty sha256 t = (text, hex_encode (sha256 text)) /\ json_text text (document t) /\ canonical (document t).
Proof.
  intros sha256 t A. exists (tx_json t). split; [reflexivity|]. split; [apply jr_text, jr_tx, A|apply can_document].
Qed.
(** Transactions in valid text with the same document are the same transaction. *)
Theorem cosmos_document_binding : forall sha256 a b, tx_all good a -> tx_all good b ->
  fst (create_empty sha256 a) = fst (create_empty sha256 b) -> a = b.
Proof.
  intros sha256 a b A B E. cbn [create_empty fst] in E. apply document_inj; [exact A|exact B|].
  pose proof (jr_text _ _ (jr_tx a (tx_weaken good is_bytes (fun s H => proj1 H) a A))) as Ja. pose proof (jr_text _ _ (jr_tx b (tx_weaken good is_bytes (fun s H => proj1 H) b B))) as Jb. cbv zeta in E. cbn [fst] in E. rewrite E in Ja. eapply json_text_unique; eassumption.
Qed.
(** Text that is not valid is not told apart: two transactions that differ only there have the same document. *)
Theorem cosmos_invalid_text_same : exists a b, a <> b /\ tx_all is_bytes a /\ tx_all is_bytes b /\ forall sha256, create_empty sha256 a = create_empty sha256 b.
Proof.
  set (t := fun memo => {| t_account := []; t_chain := []; t_fee := {| f_amount := None; f_gas := [] |}; t_memo := memo; t_msgs := None; t_sequence := [] |}).
  assert (G : forall memo, is_bytes memo -> tx_all is_bytes (t memo)). { intros memo Hm. repeat split; try constructor; exact Hm. }
  exists (t [128]), (t [129]). split; [intros E; injection E; discriminate|]. split; [apply G; repeat constructor; unfold is_byte; lia|]. split; [apply G; repeat constructor; unfold is_byte; lia|]. intros sha256. reflexivity.
Qed.

(** ** C102 *)
(** Building a transaction: the numbers in decimal, the fee as given unless its first coin has no amount: then all its coins are
    dropped, in the caller's fee too. Without fee coins the program stops. *)
Theorem cosmos_build : forall chain memo account sequence f msgs,
  (new_tx chain memo account sequence f msgs = Panic <-> match f with Some f => f_amount f = None \/ f_amount f = Some [] | None => True end) /\
  (forall t f', new_tx chain memo account sequence f msgs = Ok (t, f') <-> exists g c cs, f = Some g /\ f_amount g = Some (c :: cs) /\
     f' = {| f_amount := if Nat.eqb (length (c_amount c)) 0 then Some [] else Some (c :: cs); f_gas := f_gas g |} /\
     t = {| t_account := format_int account; t_chain := chain; t_fee := f'; t_memo := memo; t_msgs := msgs; t_sequence := format_int sequence |}) /\
  decimal_text (format_int account) account /\ decimal_text (format_int sequence) sequence.
Proof.
  intros chain memo account sequence f msgs. unfold new_tx. split; [|split; [|split; apply format_int_ok]].
  - destruct f as [f|]; [|tauto]. destruct (f_amount f) as [[|c cs]|]; split; auto; try discriminate. intros [Q|Q]; discriminate.
  - intros t f'. destruct f as [g|]; [|split; [discriminate|intros (g & c & cs & E & _); discriminate]]. destruct (f_amount g) as [[|c cs]|] eqn:A.
    + split; [discriminate|]. intros (h & c & cs & E & E' & _). assert (h = g) by congruence. subst. congruence.
    + assert (X : (if Nat.eqb (length (c_amount c)) 0 then {| f_amount := Some []; f_gas := f_gas g |} else g) =
                  {| f_amount := if Nat.eqb (length (c_amount c)) 0 then Some [] else Some (c :: cs); f_gas := f_gas g |}).
      { destruct (Nat.eqb _ 0); [reflexivity|]. destruct g as [ga gg]. cbn in *. subst ga. reflexivity. }
      cbv zeta. rewrite X. split.
      * intros E. exists g, c, cs. split; [reflexivity|]. split; [exact A|]. split; congruence.
      * intros (h & c' & cs' & E & E' & -> & ->). assert (h = g) by congruence. subst h. assert (c' = c) by congruence. assert (cs' = cs) by congruence. subst c' cs'. reflexivity.
    + split; [discriminate|]. intros (h & c & cs & E & E' & _). assert (h = g) by congruence. subst. congruence.
Qed.
(** The usual calls: a transfer of [amount] with a fee of [price] (both non-zero or not) in coins of one kind. A zero fee gives no fee
    coins; a zero amount gives a coin without amount and name. *)
Definition one_coin (denom : list Z) (n : Z) (c : json) : Prop :=
  exists d, decimal_text d n /\ c = if n =? 0 then JObj [(str "amount", JStr []); (str "denom", JStr [])] else JObj [(str "amount", JStr d); (str "denom", txt denom)].
Theorem cosmos_transfer : forall sha256 chain memo account sequence denom gas price from to amount kind,
  is_bytes chain -> is_bytes memo -> is_bytes denom -> is_bytes from -> is_bytes to -> is_bytes kind ->
  exists t f text, new_tx chain memo account sequence (Some (new_std_fee gas (Some [new_coin denom price]))) (Some [new_message kind (new_msg_send from to (Some [new_coin denom amount]))]) = Ok (t, f) /\
    fst (create_empty sha256 t) = text /\ exists a s g p c, decimal_text a account /\ decimal_text s sequence /\ decimal_text g gas /\ one_coin denom price p /\ one_coin denom amount c /\
    json_text text (JObj [(str "account_number", JStr a); (str "chain_id", txt chain);
      (str "fee", JObj [(str "amount", JArr (if price =? 0 then [] else [p])); (str "gas", JStr g)]); (str "memo", txt memo);
      (str "msgs", JArr [JObj [(str "type", txt kind); (str "value", JObj [(str "amount", JArr [c]); (str "from_address", txt from); (str "to_address", txt to)])]]);
      (str "sequence", JStr s)]).
Proof.
  intros sha256 chain memo account sequence denom gas price from to amount kind Hc Hm Hd Hf Ht Hk.
  assert (FB : forall n, is_bytes (format_int n)) by (intros n; apply Forall_forall; pose proof (decimal_ascii _ _ (format_int_ok n)) as F; rewrite Forall_forall in F; intros x Hx; specialize (F x Hx); unfold is_byte; lia).
  assert (FC : forall n, clean (format_int n) = format_int n) by (intros n; apply clean_valid, ascii_valid; eapply decimal_ascii, format_int_ok).
  assert (NC : forall n, coin_all is_bytes (new_coin denom n)) by (intros n; unfold new_coin; destruct (n =? 0); [split; constructor|split; [apply FB|exact Hd]]).
  assert (OC : forall n, one_coin denom n (coin_value (new_coin denom n))).
  { intros n. exists (format_int n). split; [apply format_int_ok|]. unfold new_coin. destruct (n =? 0); [reflexivity|]. unfold coin_value, txt. cbn [c_amount c_denom]. rewrite FC. reflexivity. }
  unfold new_tx, new_std_fee. cbn [f_amount f_gas]. cbv zeta. set (f' := if Nat.eqb _ 0 then _ else _).
  assert (Ef : f_gas f' = format_int gas /\ f_amount f' = Some (if price =? 0 then [] else [new_coin denom price])).
  { unfold f', new_coin. destruct (price =? 0); [split; reflexivity|]. cbn [c_amount]. destruct (format_int_ok price) as (ds & N & _ & _ & [(_ & E & _)|(_ & E & _)]); rewrite E; [destruct ds; [contradiction|split; reflexivity]|split; reflexivity]. }
  destruct Ef as [Eg Ea]. eexists _, _, _. split; [reflexivity|]. split; [reflexivity|]. cbn [create_empty fst]. cbv zeta. cbn [fst].
  exists (format_int account), (format_int sequence), (format_int gas), (coin_value (new_coin denom price)), (coin_value (new_coin denom amount)).
  split; [apply format_int_ok|]. split; [apply format_int_ok|]. split; [apply format_int_ok|]. split; [apply OC|]. split; [apply OC|]. clearbody f'.
  apply jr_text. eapply (fun t H => eq_ind _ (jr _) (jr_tx t H)).
  - split; [apply FB|]. split; [exact Hc|]. split; [split; [cbn [t_fee]; rewrite Ea; cbn; destruct (price =? 0); [constructor|constructor; [apply NC|constructor]]|cbn [t_fee]; rewrite Eg; apply FB]|]. split; [exact Hm|]. split; [|apply FB].
    cbn. constructor; [|constructor]. split; [exact Hk|]. split; [cbn; constructor; [apply NC|constructor]|]. split; [exact Hf|exact Ht].
  - unfold document, fee_value. cbn [t_account t_chain t_fee t_memo t_msgs t_sequence]. assert (TF : forall n, txt (format_int n) = JStr (format_int n)) by (intros n; unfold txt; rewrite FC; reflexivity). rewrite Ea, Eg, !TF. unfold arr, message_value, new_message, new_msg_send. cbn [map m_type m_value m_amount m_from m_to arr].
    destruct (price =? 0); reflexivity.
Qed.

(** ** C103 *)
(** Signing succeeds exactly on a 32-byte hash in hexadecimal, a 32-byte key, a signature of at least 32 bytes and success. The program
    stops when the signature is shorter than 32 bytes, whether or not it is a success. *)
Theorem cosmos_sign_iff : forall sign txHash prikey,
  (forall text, sign_hash sign txHash prikey = Ok text <-> exists hash sig out, hex_decode txHash = Ok hash /\ length hash = 32%nat /\ length prikey = 32%nat /\
     sign prikey hash = (sig, true) /\ serialize_s secp_order secp_half sig = Ok out /\ text = hex_encode out) /\
  (sign_hash sign txHash prikey = Panic <-> exists hash sig ok, hex_decode txHash = Ok hash /\ length hash = 32%nat /\ length prikey = 32%nat /\
     sign prikey hash = (sig, ok) /\ (length sig < 32)%nat).
Proof.
  intros sign txHash prikey. unfold sign_hash. destruct (hex_decode txHash) as [hash| |] eqn:D; cbn [bind].
  2:{ split; [|split; [discriminate|intros (h & ? & ? & E & _); discriminate]]. intros t. split; [discriminate|]. intros (h & ? & ? & E & _). discriminate. }
  2:{ exfalso. exact (hex_decode_not_panic _ D). }
  destruct (negb (zlen hash =? 32) || negb (zlen prikey =? 32)) eqn:L.
  { unfold zlen in L. split; [intros t|]; (split; [discriminate|]); [intros (h & sig & out & E & L1 & L2 & _)|intros (h & sig & ok & E & L1 & L2 & _)]; assert (h = hash) by congruence; subst; lia. }
  unfold zlen in L. destruct (sign prikey hash) as [sig ok] eqn:S. pose proof (normalise_panics_iff secp_order secp_half sig) as NP.
  assert (NE : serialize_s secp_order secp_half sig <> Err).
  { destruct (Nat.lt_ge_cases (length sig) 32) as [Lt|Ge]; [apply NP in Lt; congruence|]. rewrite <- (firstn_skipn 32 sig). rewrite serialize_eq by (rewrite firstn_length; lia). discriminate. }
  destruct (serialize_s secp_order secp_half sig) as [out| |] eqn:N; [|congruence|]; cbn [bind].
  - split.
    + intros t. destruct ok; split; try discriminate.
      * intros E. exists hash, sig, out. split; [reflexivity|]. split; [lia|]. split; [lia|]. split; [exact S|]. split; [exact N|congruence].
      * intros (h & sg & o & E & _ & _ & Sg & No & ->). assert (h = hash) by congruence. subst h. rewrite S in Sg. assert (sg = sig) by congruence. subst sg. rewrite N in No. congruence.
      * intros (h & sg & o & E & _ & _ & Sg & No & ->). assert (h = hash) by congruence. subst h. rewrite S in Sg. congruence.
    + split; [destruct ok; discriminate|]. intros (h & sg & o & E & _ & _ & Sg & Ls). assert (h = hash) by congruence. subst h. rewrite S in Sg. assert (sg = sig) by congruence. subst sg. apply NP in Ls. congruence.
  - assert (Ls : (length sig < 32)%nat) by (apply NP; reflexivity). split.
    + intros t. split; [discriminate|]. intros (h & sg & o & E & _ & _ & Sg & No & _). assert (h = hash) by congruence. subst h. rewrite S in Sg. assert (sg = sig) by congruence. subst sg. congruence.
    + split; [intros _|reflexivity]. exists hash, sig, ok. split; [reflexivity|]. split; [lia|]. split; [lia|]. split; [exact S|exact Ls].
Qed.
(** Verification accepts exactly what the curve accepts for the hash of the text. *)
Theorem cosmos_verify_iff : forall sha256 verify text signature pubkey,
  verify_sig sha256 verify text signature pubkey = true <-> exists sig, hex_decode signature = Ok sig /\ verify pubkey (sha256 text) sig = true.
Proof.
  intros. unfold verify_sig. destruct (hex_decode signature) as [s| |] eqn:D; (split; [intros E; try discriminate; exists s; auto|]); intros (s' & E & V); congruence.
Qed.
(** Create, sign, verify. For a curve that signs with r||s of 64 bytes and s below the order, and accepts r||s and r||-s of 64 bytes for
    the signer's public key, the signature of every transaction is accepted, unless s is high and the order minus s has fewer than
    31 bytes: then the text of the signature has fewer than 128 digits. *)
Theorem cosmos_flow : forall sha256 sign verify pub prikey t, hash_ok sha256 -> (forall d, is_bytes d -> length (sha256 d) = 32%nat) -> tx_all is_bytes t -> length prikey = 32%nat ->
  (forall h, length h = 32%nat -> exists r s, sign prikey h = (r ++ s, true) /\ length r = 32%nat /\ length s = 32%nat /\ is_bytes r /\ is_bytes s /\ be_num s < secp_order /\
     forall s', is_bytes s' -> length s' = 32%nat -> be_num s' = be_num s \/ be_num s' = secp_order - be_num s -> verify pub h (r ++ s') = true) ->
  let '(text, hash) := create_empty sha256 t in
  exists signature, sign_hash sign hash prikey = Ok signature /\ (length signature <= 128)%nat /\
    (length signature = 128%nat -> verify_sig sha256 verify text signature pub = true) /\
    (length signature <> 128%nat <-> exists r s, sign prikey (sha256 text) = (r ++ s, true) /\ length r = 32%nat /\ length s = 32%nat /\ secp_order < 2 * be_num s /\ secp_order - be_num s < 2 ^ 240).
Proof.
  intros sha256 sign verify pub prikey t HO HL At Lk C. pose proof (tx_json_bytes t At) as Bt. unfold create_empty. cbv zeta. set (text := tx_json t) in *. clearbody text. destruct (C (sha256 text) (HL _ Bt)) as (r & s & Es & Lr & Ls & Br & Bs & Os & V).
  assert (CP : curve_pair secp_order secp_half) by (left; split; reflexivity).
  destruct (normalised_low_s secp_order secp_half r s CP Lr Bs Ls) as (s' & N & Bs' & _ & Low & _ & Min). specialize (Min ltac:(lia)).
  destruct (normalised_length_64_iff secp_order secp_half r s _ CP Lr Bs Ls N) as [L64 Le]. rewrite app_length in L64, Le.
  assert (Bh : is_bytes (sha256 text)) by (apply HO; exact Bt).
  assert (Sg : sign_hash sign (hex_encode (sha256 text)) prikey = Ok (hex_encode (r ++ s'))).
  { apply cosmos_sign_iff. exists (sha256 text), (r ++ s), (r ++ s'). split; [apply hex_decode_encode; exact Bh|]. split; [apply HL; exact Bt|]. split; [exact Lk|]. split; [exact Es|]. split; [exact N|reflexivity]. }
  exists (hex_encode (r ++ s')). split; [exact Sg|]. rewrite hex_encode_length, app_length. split; [lia|]. split.
  - intros L. apply cosmos_verify_iff. exists (r ++ s'). split; [apply hex_decode_encode; apply is_bytes_app; split; assumption|]. apply V; [exact Bs'|lia|lia].
  - pose proof (be_num_bound s Bs) as Sb. assert (Od : secp_order mod 2 = 1) by reflexivity. assert (Od2 : secp_order = 2 * (secp_order / 2) + 1) by reflexivity. split.
    + intros Ne. exists r, s. split; [exact Es|]. split; [exact Lr|]. split; [exact Ls|]. assert (K : ~ (2 * be_num s < secp_order \/ 2 ^ 240 <= Z.abs (secp_order - be_num s))) by (intros K; apply L64 in K; lia). lia.
    + intros (r1 & s1 & E1 & Lr1 & Ls1 & H1 & H2). rewrite Es in E1. assert (EE : r ++ s = r1 ++ s1) by congruence. assert (Esk : skipn 32 (r ++ s) = skipn 32 (r1 ++ s1)) by (rewrite EE; reflexivity).
      rewrite !skipn_app, Lr, Lr1, (skipn_all2 r), (skipn_all2 r1) in Esk by lia. change (s = s1) in Esk. subst s1. intros L. assert (K : 2 * be_num s < secp_order \/ 2 ^ 240 <= Z.abs (secp_order - be_num s)) by (apply L64; lia). lia.
Qed.

(** ** C104 *)
(** The request for the node: one JSON value with the messages, fee and memo of the transaction, and one signature with the key, the
    signature bytes and (not for Evaio) the account number and sequence of the transaction. The only error is a signature that is not
    hexadecimal. *)
Definition signed_value (evaio : bool) (t : tx) (sig64 key64 keyType : list Z) : json :=
  JObj [(str "msg", arr message_value (t_msgs t)); (str "fee", fee_value (t_fee t)); (str "memo", txt (t_memo t));
        (str "signatures", JArr [JObj ([(str "signature", JStr sig64); (str "pub_key", JObj [(str "type", txt keyType); (str "value", JStr key64)])] ++
           if evaio then [] else [(str "account_number", txt (t_account t)); (str "sequence", txt (t_sequence t))])])].
Lemma b64_ascii s : Forall (fun c => 0 <= c < 128) (b64_encode s).
Proof.
  assert (C : forall v, 0 <= b64_char v < 128).
  { intros v. pose proof (b64_char_ok v) as [_ E]. apply nth_error_In in E. assert (K : forallb (fun c => (0 <=? c) && (c <? 128)) b64_alphabet = true) by reflexivity. rewrite forallb_forall in K. specialize (K _ E). lia. }
  assert (G : forall n s, (length s <= n)%nat -> Forall (fun c => 0 <= c < 128) (b64_encode s)); [|apply (G _ s (le_n _))].
  intros n. induction n as [|n IH]; intros t L; [destruct t; [constructor|cbn in L; lia]|]. destruct t as [|a [|b [|c t]]]; [constructor| | |].
  - cbn [b64_encode]. cbv zeta. repeat constructor; try lia; apply C.
  - cbn [b64_encode]. cbv zeta. repeat constructor; try lia; apply C.
  - cbn [length] in L. cbn [b64_encode]. cbv zeta. apply Forall_app. split; [repeat constructor; apply C|apply IH; lia].
Qed.
Theorem cosmos_request_iff : forall evaio t signature pubkey keyType mode, tx_all is_bytes t -> is_bytes pubkey -> is_bytes keyType -> is_bytes mode ->
  (forall e, create_json evaio t signature pubkey keyType mode = e -> (e = Err <-> ~ exists sig, hex_decode signature = Ok sig) /\ e <> Panic) /\
  (forall sig, hex_decode signature = Ok sig -> exists text sig64 key64, create_json evaio t signature pubkey keyType mode = Ok text /\ base64_of sig64 sig /\ base64_of key64 pubkey /\
     json_text text (JObj (if evaio then [(str "mode", txt mode); (str "tx", signed_value evaio t sig64 key64 keyType)] else [(str "tx", signed_value evaio t sig64 key64 keyType); (str "mode", txt mode)]))).
Proof.
  intros evaio t signature pubkey keyType mode (A1 & A2 & A3 & A4 & A5 & A6) Bp Bk Bm. unfold create_json. split.
  - intros e <-. destruct (hex_decode signature) as [s| |] eqn:D; cbn [bind]; [|split; [|discriminate]|exfalso; exact (hex_decode_not_panic _ D)].
    + split; [|discriminate]. split; [discriminate|]. intros N. exfalso. apply N. eauto.
    + split; [|reflexivity]. intros _ (s & E). discriminate.
  - intros sig D. rewrite D. cbn [bind]. pose proof (proj1 (hex_decode_bytes _ _ D)) as Bs. eexists _, (b64_encode sig), (b64_encode pubkey). split; [reflexivity|]. split; [apply b64_encode_ok; exact Bs|]. split; [apply b64_encode_ok; exact Bp|].
    assert (JB : forall b, jr (go_string (b64_encode b)) (JStr (b64_encode b))).
    { intros b. pose proof (b64_ascii b) as F. rewrite <- (clean_valid _ (ascii_valid _ F)) at 2. apply jr_string. eapply Forall_impl; [|exact F]. unfold is_byte. intros; lia. }
    assert (JS : jr (signed_json evaio t sig pubkey keyType) (signed_value evaio t (b64_encode sig) (b64_encode pubkey) keyType)).
    { unfold signed_json, signed_value. fields; [apply jr_messages; exact A5|apply jr_fee; exact A3|apply jr_string; exact A4|]. apply jr_array. constructor; [|constructor].
      unfold sig_json, pub_json. destruct evaio; cbn [app]; fields; try apply JB; try (apply jr_string; assumption); fields; try apply JB; apply jr_string; assumption. }
    apply jr_text. destruct evaio; fields; try exact JS; apply jr_string; exact Bm.
Qed.
(** The key and the signature can be read back from their base 64 texts in only one way. *)
Theorem cosmos_base64_unique : forall text a b, is_bytes a -> is_bytes b -> base64_of text a -> base64_of text b -> a = b.
Proof. intros text a b A B Ha Hb. exact (base64_unique text a Ha b A B Hb). Qed.

(** ** Examples *)
Definition ex_tx : tx :=
  {| t_account := str "1858"; t_chain := str "gaia-13003"; t_fee := {| f_amount := Some []; f_gas := str "200000" |}; t_memo := str "a<b";
     t_msgs := Some [new_message (str "cosmos-sdk/MsgSend") (new_msg_send (str "cosmos1x9") (str "cosmos1xv") (Some [new_coin (str "muon") 1000000]))]; t_sequence := str "2" |}.
Definition ascii_ok (s : list Z) : bool := forallb (fun c => (0 <=? c) && (c <? 128)) s.
Lemma ascii_good s : ascii_ok s = true -> good s.
Proof.
  unfold ascii_ok. rewrite forallb_forall. intros H. split; [apply Forall_forall; intros x Hx; specialize (H x Hx); unfold is_byte; lia|]. apply ascii_valid, Forall_forall. intros x Hx. specialize (H x Hx). lia.
Qed.
Example ex_tx_good : tx_all good ex_tx.
Proof.
  split; [apply ascii_good; reflexivity|]. split; [apply ascii_good; reflexivity|]. split; [split; [constructor|apply ascii_good; reflexivity]|]. split; [apply ascii_good; reflexivity|]. split; [|apply ascii_good; reflexivity].
  cbn. constructor; [|constructor]. split; [apply ascii_good; reflexivity|]. split; [|split; apply ascii_good; reflexivity]. cbn. constructor; [|constructor]. split; apply ascii_good; reflexivity.
Qed.
Example ex_tx_text : tx_json ex_tx = str "{""account_number"":""1858"",""chain_id"":""gaia-13003"",""fee"":{""amount"":[],""gas"":""200000""},""memo"":""a\u003cb"",""msgs"":[{""type"":""cosmos-sdk/MsgSend"",""value"":{""amount"":[{""amount"":""1000000"",""denom"":""muon""}],""from_address"":""cosmos1x9"",""to_address"":""cosmos1xv""}}],""sequence"":""2""}".
Proof. vm_compute. reflexivity. Qed.
(** A failing signature without bytes stops the program. *)
Example ex_sign_fails : sign_hash (fun _ _ => ([], false)) (hex_encode (be_bytes 32 5)) (be_bytes 32 7) = Panic.
Proof. apply (proj2 (cosmos_sign_iff _ _ _)). exists (be_bytes 32 5), [], false. split; [apply hex_decode_encode, be_bytes_is_bytes|]. split; [apply be_bytes_length|]. split; [apply be_bytes_length|]. split; [reflexivity|cbn; lia]. Qed.
(** The hypotheses of cosmos_flow are met. *)
Example ex_flow : let sign := fun _ _ => (be_bytes 32 9 ++ be_bytes 32 11, true) in let verify := fun _ _ sig => true in
  hash_ok toy_hash /\ (forall d, is_bytes d -> length (toy_hash d) = 32%nat) /\ (forall h : bytes, length h = 32%nat -> exists r s, sign (be_bytes 32 7) h = (r ++ s, true) /\ length r = 32%nat /\ length s = 32%nat /\ is_bytes r /\ is_bytes s /\ be_num s < secp_order /\
     forall s', is_bytes s' -> length s' = 32%nat -> be_num s' = be_num s \/ be_num s' = secp_order - be_num s -> verify [2] h (r ++ s') = true).
Proof.
  cbv zeta. split; [exact toy_hash_ok|]. split; [intros d _; apply be_bytes_length|]. intros h _. exists (be_bytes 32 9), (be_bytes 32 11). split; [reflexivity|]. split; [apply be_bytes_length|]. split; [apply be_bytes_length|].
  split; [apply be_bytes_is_bytes|]. split; [apply be_bytes_is_bytes|]. split; [reflexivity|reflexivity].
Qed.
Print Assumptions cosmos_document.
Print Assumptions cosmos_document_binding.
Print Assumptions cosmos_transfer.
Print Assumptions cosmos_flow.
Print Assumptions cosmos_request_iff.
