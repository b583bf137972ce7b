(** Property C140: the registry of transaction signers and SignTxHash for symbols that are any byte strings. *)
From Coq Require Import String ZArith List Bool Lia ZifyBool ZifyNat.
From Verif Require Import Go GoFacts GoFacts2 Base58Model Base58Proofs GoJson Json GoUnjsonFacts SigModel SignerModel SignerRegProps CaseModel CaseProps.
Import ListNotations.
Open Scope Z_scope.
Ltac Zify.zify_post_hook ::= idtac.

(** ** Specification *)
(** [c] can stand for the capital letter or digit [n]: [n] itself, its small letter, and for S the long s, for I the dotless i. *)
Definition stands_for (n c : Z) : Prop := c = n \/ (65 <= n <= 90 /\ c = n + 32) \/ (n = 83 /\ c = 0x17F) \/ (n = 73 /\ c = 0x131).
Definition spells (name symbol : list Z) : Prop := exists cs, Forall2 stands_for name cs /\ symbol = flat_map utf8 cs.
(** What unicode.SimpleFold says about the letters of NAS and TRX: only S has a third form, the long s. *)
Definition unicode_fold (fold : Z -> Z -> bool) : Prop :=
  forall n, In n (ascii "NASTRX") -> forall c, 0 <= c -> (fold c n = true <-> c = n \/ c = n + 32 \/ (n = 83 /\ c = 0x17F)).

(** ** Lemmas *)
Lemma upper_low upper c : unicode_upper upper -> 0 <= c -> forall n, 0 <= n < 128 -> ~ 97 <= n <= 122 -> (upper c = n <-> stands_for n c).
Proof.
  intros (A & S & I & _ & _ & O) P n Hn Nl. unfold stands_for. destruct (Z_lt_dec c 128) as [L|L].
  - rewrite A by lia. destruct ((97 <=? c) && (c <=? 122)) eqn:E; lia.
  - destruct (Z.eq_dec c 0x17F) as [->|N1]; [rewrite S; lia|]. destruct (Z.eq_dec c 0x131) as [->|N2]; [rewrite I; lia|]. specialize (O c ltac:(lia) N1 N2). lia.
Qed.
Definition name_ok (name : list Z) : Prop := Forall (fun c => 0 <= c < 128 /\ ~ 97 <= c <= 122) name.
Lemma stands_scalar name cs : name_ok name -> Forall2 stands_for name cs -> Forall scalar cs.
Proof.
  intros N F. induction F as [|n c name cs S F IH]; [constructor|]. inversion N as [|? ? [N1 N2] N3]; subst. constructor; [|apply IH; exact N3]. unfold stands_for, scalar in *. lia.
Qed.
(** The upper case of a symbol is a given name of capitals exactly when the symbol spells it. *)
Lemma upper_is_name upper name symbol : unicode_upper upper -> is_bytes symbol -> name_ok name -> (strings_map upper symbol = name <-> spells name symbol).
Proof.
  intros U B N. split.
  - intros E. assert (L : Forall (fun b => b < 128) (flat_map utf8_rune (map upper (runes symbol)))) by (fold (strings_map upper symbol); rewrite E; eapply Forall_impl; [|exact N]; cbn beta; intros; lia).
    apply utf8_low in L as [L El]. apply (proj1 (Forall_map _ _ _)) in L. assert (Em : map upper (runes symbol) = name) by (rewrite <- E; symmetry; exact El).
    assert (NB : ~ In 65533 (runes symbol)). { intros I. rewrite Forall_forall in L. specialize (L _ I). cbn beta in L. destruct U as (_ & _ & _ & _ & _ & O). specialize (O 65533 ltac:(lia) ltac:(lia) ltac:(lia)). lia. }
    destruct (runes_valid symbol B NB) as [Es Sc]. exists (runes symbol). split; [|exact Es]. clear - U N Em Sc. revert name N Em. induction Sc as [|c cs S F IH]; intros [|n name] N Em; try discriminate; [constructor|]. cbn [map] in Em. inversion N as [|? ? [N1 N2] N3]; subst.
    assert (E1 : upper c = n) by congruence. assert (E2 : map upper cs = name) by congruence. constructor; [|apply IH; assumption]. apply (upper_low upper c U); [unfold scalar in S; lia|lia|lia|exact E1].
  - intros (cs & F & ->). pose proof (stands_scalar name cs N F) as S. unfold strings_map. rewrite runes_of by exact S.
    assert (E : map upper cs = name). { clear - U F N S. induction F as [|n c name cs T F IH]; [reflexivity|]. inversion N as [|? ? [N1 N2] N3]; subst. inversion S; subst. cbn [map]. rewrite IH by assumption. f_equal. apply upper_low; try assumption; try lia. unfold scalar in *. lia. }
    rewrite E. apply utf8_ascii. eapply Forall_impl; [|exact N]. cbn beta. intros; lia.
Qed.
Lemma pointwise_forall e a : forall b, pointwise e a b = true <-> Forall2 (fun x y => e x y = true) a b.
Proof.
  induction a as [|x a IH]; intros [|y b]; cbn [pointwise]; split; intros H; try discriminate; try (inversion H; fail); try constructor; try reflexivity.
  - apply andb_true_iff in H. apply H.
  - apply IH. apply andb_true_iff in H. apply H.
  - inversion H; subst. apply andb_true_iff. split; [assumption|apply IH; assumption].
Qed.
Lemma fold_spells fold name symbol : unicode_fold fold -> is_bytes symbol -> Forall (fun n => In n (ascii "NASTRX")) name -> (strings_equal_fold fold symbol name = true <-> spells name symbol).
Proof.
  intros U B N. assert (R : forall n, In n (ascii "NASTRX") -> 65 <= n <= 90 /\ n <> 73) by (intros n I; change (ascii "NASTRX") with [78; 65; 83; 84; 82; 88] in I; cbn [In] in I; lia).
  assert (No : name_ok name) by (eapply Forall_impl; [|exact N]; cbn beta; intros n I; specialize (R n I); lia).
  assert (Q : forall n c, In n (ascii "NASTRX") -> 0 <= c -> (fold c n = true <-> stands_for n c)) by (intros n c I P; rewrite (U n I c P); specialize (R n I); unfold stands_for; lia).
  unfold strings_equal_fold. rewrite pointwise_forall. rewrite (runes_ascii name) by (eapply Forall_impl; [|exact No]; cbn beta; intros; lia). split.
  - intros F. assert (NB : ~ In 65533 (runes symbol)). { clear - F N Q R. intros I. revert N. induction F as [|c n cs name E F IH]; [contradiction|]. intros N. inversion N as [|? ? N1 N2]; subst. destruct I as [-> |I]; [|apply IH; assumption]. apply (Q n) in E; [|exact N1|lia]. specialize (R n N1). unfold stands_for in E. lia. }
    destruct (runes_valid symbol B NB) as [Es Sc]. exists (runes symbol). split; [|exact Es]. clear - F N Q Sc. revert Sc N. induction F as [|c n cs name E F IH]; intros Sc N; [constructor|]. inversion N as [|? ? N1 N2]; subst. inversion Sc as [|? ? S1 S2]; subst. constructor; [apply Q; [exact N1|unfold scalar in S1; lia|exact E]|apply IH; assumption].
  - intros (cs & F & ->). pose proof (stands_scalar name cs No F) as S. rewrite runes_of by exact S. clear - F N Q S. induction F as [|n c name cs T F IH]; [constructor|]. inversion N as [|? ? N1 N2]; subst. inversion S as [|? ? S1 S2]; subst. constructor; [|apply IH; assumption]. apply Q; [exact N1|unfold scalar in S1; lia|exact T].
Qed.
Section Reg.
Variable upper : Z -> Z.
Variable M : Type.
Notation up := (strings_map upper).
Lemma uni_reg_keeps calls : forall m m' name x, uni_reg_all upper M m calls = Ok m' -> lookup M m name = Some x -> lookup M m' name = Some x.
Proof.
  induction calls as [|[n o] calls IH]; intros m m' name x E L; cbn [uni_reg_all] in E; [congruence|].
  unfold uni_reg_tx_signer in E. destruct o as [y|]; [|discriminate].
  destruct (lookup M m (up n)) eqn:Q; cbn [bind] in E; apply (IH _ _ _ _ E); [exact L|]. cbn [SignerModel.lookup].
  destruct (beq (up n) name) eqn:C; [|exact L]. apply beq_eq in C. subst name. congruence.
Qed.
Lemma uni_reg_lookup calls : forall m m' name, uni_reg_all upper M m calls = Ok m' -> lookup M m (up name) = None ->
  lookup M m' (up name) = match find (fun c => beq (up (fst c)) (up name)) calls with Some c => snd c | None => None end.
Proof.
  induction calls as [|[n o] calls IH]; intros m m' name E L; cbn [uni_reg_all] in E; [cbn [find]; congruence|].
  unfold uni_reg_tx_signer in E. destruct o as [y|]; [|discriminate]. cbn [find fst].
  destruct (beq (up n) (up name)) eqn:C.
  - apply beq_eq in C. rewrite C in E. rewrite L in E. cbn [bind] in E. cbn [snd]. apply (uni_reg_keeps _ _ _ _ _ E). cbn [SignerModel.lookup]. rewrite beq_refl. reflexivity.
  - destruct (lookup M m (up n)) eqn:Q; cbn [bind] in E; apply (IH _ _ _ E); [exact L|]. cbn [SignerModel.lookup]. rewrite C. exact L.
Qed.
Lemma uni_reg_ok calls : forall m, (forall n, ~ In (n, None) calls) -> exists m', uni_reg_all upper M m calls = Ok m'.
Proof.
  induction calls as [|[n o] calls IH]; intros m H; [exists m; reflexivity|]. cbn [uni_reg_all]. unfold uni_reg_tx_signer. destruct o as [y|]; [|exfalso; apply (H n); left; reflexivity].
  destruct (lookup M m (up n)); cbn [bind]; apply IH; intros k I; apply (H k); right; exact I.
Qed.
Lemma uni_reg_panic calls : forall m, (exists n, In (n, None) calls) -> uni_reg_all upper M m calls = Panic.
Proof.
  induction calls as [|[n o] calls IH]; intros m (k & I); [contradiction|]. cbn [uni_reg_all]. unfold uni_reg_tx_signer. destruct o as [y|]; [|reflexivity].
  destruct I as [I|I]; [discriminate|]. destruct (lookup M m (up n)); cbn [bind]; apply IH; exists k; exact I.
Qed.
End Reg.
Lemma find_first {A} (p : A -> bool) l : match find p l with
  | Some x => exists before after, l = before ++ x :: after /\ p x = true /\ forall y, In y before -> p y = false
  | None => forall y, In y l -> p y = false end.
Proof.
  induction l as [|a l IH]; cbn [find]; [intros y []|]. destruct (p a) eqn:E; [exists [], l; split; [reflexivity|]; split; [exact E|intros y []]|].
  destruct (find p l) as [x|]; [destruct IH as (b & c & -> & P & F); exists (a :: b), c; split; [reflexivity|]; split; [exact P|]; intros y [->|I]; [exact E|apply F, I]|]. intros y [->|I]; [exact E|apply IH, I].
Qed.

(** ** C140 *)
(** Every history of registrations, with names and symbols that are any byte strings: the first registration under the same upper-case
    text counts. *)
Theorem uni_registry_first_wins : forall upper (M : Type) (calls : list (list Z * option M)),
  (uni_reg_all upper M [] calls = Panic <-> exists n, In (n, None) calls) /\
  ((forall n, ~ In (n, None) calls) -> exists m, uni_reg_all upper M [] calls = Ok m /\
    forall symbol,
      (forall x, uni_get_tx_signer upper M m symbol = Some x <->
         exists before n after, calls = before ++ (n, Some x) :: after /\ strings_map upper n = strings_map upper symbol /\ forall n' o, In (n', o) before -> strings_map upper n' <> strings_map upper symbol) /\
      (uni_get_tx_signer upper M m symbol = None <-> forall n o, In (n, o) calls -> strings_map upper n <> strings_map upper symbol)).
Proof.
  intros upper M calls. assert (D : (exists n, In (n, None) calls) \/ (forall n, ~ In (n, None) calls)).
  { clear. induction calls as [|[n [x|]] calls [(k & I)|F]]; [right; intros n []|left; exists k; right; exact I|right; intros k [I|I]; [discriminate|exact (F k I)]|left; exists n; left; reflexivity|left; exists n; left; reflexivity]. }
  split. { split; [|apply uni_reg_panic]. intros E. destruct D as [D|D]; [exact D|]. destruct (uni_reg_ok upper M calls [] D) as (m & Em). congruence. }
  intros N. destruct (uni_reg_ok upper M calls [] N) as (m & E). exists m. split; [exact E|]. intros symbol. unfold uni_get_tx_signer. rewrite (uni_reg_lookup upper M calls [] m symbol E eq_refl).
  pose proof (find_first (fun c : list Z * option M => beq (strings_map upper (fst c)) (strings_map upper symbol)) calls) as F. destruct (find _ calls) as [[n o]|].
  - destruct F as (b & a & Ec & P & Fb). cbn [fst snd] in *. apply beq_eq in P.
    assert (Fb' : forall n' o', In (n', o') b -> strings_map upper n' <> strings_map upper symbol) by (intros n' o' I Q; specialize (Fb _ I); cbn [fst] in Fb; rewrite Q, beq_refl in Fb; discriminate). split.
    + intros x. split; [intros ->; exists b, n, a; split; [exact Ec|]; split; [exact P|exact Fb']|]. intros (b' & n' & a' & Ec' & P' & Fb2). rewrite Ec in Ec'. clear - Ec' P P' Fb' Fb2. revert b' Ec' Fb2. induction b as [|y b IH]; intros [|y' b'] E F2; cbn [app] in E.
      * congruence.
      * exfalso. injection E as <- _. exact (F2 n o (or_introl eq_refl) P).
      * exfalso. injection E as -> _. exact (Fb' n' (Some x) (or_introl eq_refl) P').
      * apply (IH (fun n0 o0 I => Fb' n0 o0 (or_intror I)) b'); [congruence|exact (fun n0 o0 I => F2 n0 o0 (or_intror I))].
    + split; [|intros Q; exfalso; apply (Q n o); [rewrite Ec; apply in_or_app; right; left; reflexivity|exact P]]. intros ->. exfalso. apply (N n). rewrite Ec. apply in_or_app. right. left. reflexivity.
  - assert (F' : forall n o, In (n, o) calls -> strings_map upper n <> strings_map upper symbol) by (intros n o I Q; specialize (F _ I); cbn [fst] in F; rewrite Q, beq_refl in F; discriminate). split; [|split; [intros _; exact F'|reflexivity]].
    intros x. split; [discriminate|]. intros (b & n & a & Ec & P & _). exfalso. apply (F' n (Some x)); [rewrite Ec; apply in_or_app; right; left; reflexivity|exact P].
Qed.
Lemma default_ok : Forall name_ok default_names.
Proof.
  assert (Q : forallb (forallb (fun c => (0 <=? c) && (c <? 128) && negb ((97 <=? c) && (c <=? 122)))) default_names = true) by (vm_compute; reflexivity).
  apply Forall_forall. intros n I. rewrite forallb_forall in Q. specialize (Q n I). apply Forall_forall. intros c J. rewrite forallb_forall in Q. specialize (Q c J). lia.
Qed.
Lemma default_nodup : NoDup default_names.
Proof.
  assert (Q : (fix go l := match l with [] => true | a :: r => negb (existsb (beq a) r) && go r end) default_names = true) by (vm_compute; reflexivity).
  revert Q. generalize default_names. induction l as [|a l IH]; intros Q; [constructor|]. apply andb_true_iff in Q as [Q1 Q2]. constructor; [|apply IH; exact Q2]. intros I. apply negb_true_iff in Q1. assert (X : existsb (beq a) l = true) by (apply existsb_exists; exists a; split; [exact I|apply beq_refl]). congruence.
Qed.
(** What the package registers at start is found under exactly the symbols that spell one of the 25 names: in any case, with the long s
    for S and the dotless i for I. *)
Theorem default_signer_iff : forall upper, unicode_upper upper -> forall (M : Type) (ms : list M) m symbol x, length ms = length default_names -> is_bytes symbol ->
  uni_reg_all upper M [] (combine default_names (map Some ms)) = Ok m ->
  (uni_get_tx_signer upper M m symbol = Some x <-> exists i name, nth_error default_names i = Some name /\ nth_error ms i = Some x /\ spells name symbol).
Proof.
  intros upper U M ms m symbol x L B E. unfold uni_get_tx_signer. rewrite (uni_reg_lookup upper M _ [] m symbol E eq_refl).
  assert (Up : forall name, In name default_names -> strings_map upper name = name).
  { intros name I. pose proof default_ok as O. rewrite Forall_forall in O. specialize (O name I). apply upper_is_name; [exact U|eapply Forall_impl; [|exact O]; unfold is_byte; cbn beta; intros; lia|exact O|]. exists name. split; [clear; induction name; constructor; [left; reflexivity|assumption]|].
    symmetry. apply utf8_ascii. eapply Forall_impl; [|exact O]. cbn beta. intros; lia. }
  assert (Sp : forall name, In name default_names -> (beq (strings_map upper name) (strings_map upper symbol) = true <-> spells name symbol)).
  { intros name I. pose proof default_ok as O. rewrite Forall_forall in O. specialize (O name I). rewrite Up by exact I. rewrite <- (upper_is_name upper name symbol U B O). split; [intros Q; apply beq_eq in Q; congruence|intros ->; apply beq_refl]. }
  pose proof default_nodup as ND. clear E. revert Sp Up ND ms L. generalize default_names as ns. induction ns as [|n ns IH]; intros Sp Up ND [|y ms] L; try discriminate.
  - cbn [combine map find]. split; [discriminate|]. intros (i & name & Q & _). destruct i; discriminate.
  - cbn [combine map find fst]. destruct (beq (strings_map upper n) (strings_map upper symbol)) eqn:C.
    + cbn [snd]. split.
      * intros Q. assert (y = x) by congruence. subst. exists 0%nat, n. split; [reflexivity|]. split; [reflexivity|]. apply Sp; [left; reflexivity|exact C].
      * intros (i & name & Hn & Hx & S). assert (I : In name (n :: ns)) by (eapply nth_error_In; exact Hn). apply Sp in S; [|exact I]. rewrite Up in S by exact I. rewrite Up in C by (left; reflexivity). apply beq_eq in S, C. assert (name = n) by congruence. subst name.
        destruct i as [|i]; [cbn in Hx; congruence|]. exfalso. cbn [nth_error] in Hn. apply nth_error_In in Hn. inversion ND as [|? ? Nn ?]; subst; exact (Nn Hn).
    + rewrite (IH (fun k I => Sp k (or_intror I)) (fun k I => Up k (or_intror I)) ltac:(inversion ND; assumption) ms ltac:(cbn [length] in L; lia)). split.
      * intros (i & name & Q). exists (S i), name. exact Q.
      * intros ([|i] & name & Hn & Hx & S); [|exists i, name; auto]. exfalso. cbn in Hn. injection Hn as <-. apply (proj2 (Sp n (or_introl eq_refl))) in S. congruence.
Qed.
(** SignTxHash: a registered signer first; otherwise a symbol that spells NAS or TRX is treated like NAS, every other one like the
    empty symbol without registrations (see C85 for what these two do). *)
Theorem uni_sign_tx_hash_cases : forall upper fold, unicode_fold fold -> forall (M : Type) hmac pre ecc_sign gen_pub success failure (msign : M -> bytes -> bytes -> Z -> res bytes) plain secp fuel m symbol msg key ecc, is_bytes symbol ->
  let run := uni_sign_tx_hash upper fold M hmac pre ecc_sign gen_pub success failure msign plain secp fuel m symbol msg key ecc in
  let plain_run := fun name => sign_tx_hash hmac pre ecc_sign gen_pub success failure M msign plain secp fuel [] name msg key ecc in
  (forall s, uni_get_tx_signer upper M m symbol = Some s -> run = Some (msign s msg key ecc)) /\
  (uni_get_tx_signer upper M m symbol = None -> spells (ascii "NAS") symbol \/ spells (ascii "TRX") symbol -> run = plain_run (ascii "NAS")) /\
  (uni_get_tx_signer upper M m symbol = None -> ~ (spells (ascii "NAS") symbol \/ spells (ascii "TRX") symbol) -> run = plain_run []).
Proof.
  intros upper fold U M hmac pre ecc_sign gen_pub success failure msign plain secp fuel m symbol msg key ecc B. cbv zeta. unfold uni_sign_tx_hash.
  assert (N1 : Forall (fun n => In n (ascii "NASTRX")) (ascii "NAS")) by (repeat (apply Forall_cons; [vm_compute; tauto|]); apply Forall_nil).
  assert (N2 : Forall (fun n => In n (ascii "NASTRX")) (ascii "TRX")) by (repeat (apply Forall_cons; [vm_compute; tauto|]); apply Forall_nil).
  pose proof (fold_spells fold _ symbol U B N1) as F1. pose proof (fold_spells fold _ symbol U B N2) as F2.
  split; [intros s ->; reflexivity|]. split; intros ->; cbv zeta.
  - intros S. unfold sign_tx_hash. change (get_tx_signer M [] (ascii "NAS")) with (@None M). change (equal_fold (ascii "NAS") (ascii "NAS")) with true. cbv iota.
    destruct (strings_equal_fold fold symbol (ascii "NAS")) eqn:E; [reflexivity|]. destruct S as [S|S]; [apply F1 in S; congruence|]. apply F2 in S. rewrite S. reflexivity.
  - intros S. unfold sign_tx_hash. change (get_tx_signer M [] []) with (@None M). change (equal_fold [] (ascii "NAS")) with false. change (equal_fold [] (ascii "TRX")) with false. cbv iota.
    destruct (strings_equal_fold fold symbol (ascii "NAS")) eqn:E1; [exfalso; apply S; left; apply F1; exact eq_refl|]. destruct (strings_equal_fold fold symbol (ascii "TRX")) eqn:E2; [exfalso; apply S; right; apply F2; exact eq_refl|]. reflexivity.
Qed.
(** For ASCII symbols and names the simpler model of C62 and C85 says the same. *)
Theorem ascii_registry : forall upper, unicode_upper upper -> forall (M : Type) calls m symbol, Forall (fun c : list Z * option M => is_ascii (fst c)) calls -> is_ascii symbol ->
  uni_reg_all upper M m calls = reg_all M m calls /\ uni_get_tx_signer upper M m symbol = get_tx_signer M m symbol.
Proof.
  intros upper U M calls m symbol F A. assert (E : forall s, is_ascii s -> strings_map upper s = to_upper s) by (intros s As; exact (strings_upper_ascii upper U s As)). split.
  - revert m. induction F as [|[n o] calls H F IH]; intros m; [reflexivity|]. cbn [uni_reg_all reg_all]. unfold uni_reg_tx_signer, reg_tx_signer. cbn [fst] in H. rewrite E by exact H. destruct o as [y|]; [|reflexivity]. destruct (lookup M m (to_upper n)); cbn [bind]; apply IH.
  - unfold uni_get_tx_signer, get_tx_signer. rewrite E by exact A. reflexivity.
Qed.

(** ** Examples *)
(** v-longs-y-longs reaches the signer of VSYS. *)
Example ex_long_s : exists m, uni_reg_all ex_upper nat [] (combine default_names (map Some (seq 0 25))) = Ok m /\ uni_get_tx_signer ex_upper nat m [118; 0xC5; 0xBF; 121; 0xC5; 0xBF] = Some 4%nat.
Proof.
  destruct (proj2 (uni_registry_first_wins ex_upper nat (combine default_names (map Some (seq 0 25))))) as (m & E & _). { intros n I. apply in_combine_r in I. apply in_map_iff in I as (k & Q & _). discriminate. }
  exists m. split; [exact E|]. apply (default_signer_iff ex_upper (proj2 ex_tables) nat (seq 0 25) m); [reflexivity|repeat (apply Forall_cons; [unfold is_byte; lia|]); apply Forall_nil|exact E|].
  exists 4%nat, (ascii "VSYS"). split; [reflexivity|]. split; [reflexivity|]. exists [118; 0x17F; 121; 0x17F]. split; [|reflexivity]. change (ascii "VSYS") with [86; 83; 89; 83]. repeat (apply Forall2_cons; [unfold stands_for; lia|]). apply Forall2_nil.
Qed.
Definition ex_fold (a b : Z) : bool := (a =? b) || ((65 <=? b) && (b <=? 90) && ((a =? b + 32) || ((b =? 83) && (a =? 0x17F)))).
Example ex_fold_ok : unicode_fold ex_fold.
Proof. intros n I c P. change (ascii "NASTRX") with [78; 65; 83; 84; 82; 88] in I. cbn [In] in I. unfold ex_fold. rewrite orb_true_iff, !andb_true_iff, orb_true_iff, andb_true_iff. lia. Qed.
Print Assumptions uni_registry_first_wins.
Print Assumptions default_signer_iff.
Print Assumptions uni_sign_tx_hash_cases.
Print Assumptions ascii_registry.
