(** C62, C85: the signer registry and SignTxHash. *)
From Coq Require Import String ZArith List Bool Lia ZifyBool ZifyNat.
From Verif Require Import Go GoFacts GoFacts2 PadLoop SigModel SigNormProps SignerModel SignerProps SignerNonceProps.
Import ListNotations.
Open Scope Z_scope.
Ltac Zify.zify_post_hook ::= idtac.

(** ** Specification *)
(** Two characters that are equal or the two cases of one ASCII letter. *)
Definition same_letter (a b : Z) : Prop := a = b \/ (97 <= a <= 122 /\ b = a - 32) \/ (97 <= b <= 122 /\ a = b - 32).
Definition same_name (a b : list Z) : Prop := Forall2 same_letter a b.

(** ** Lemmas *)
Lemma upper_letter a b : (if (97 <=? a) && (a <=? 122) then a - 32 else a) = (if (97 <=? b) && (b <=? 122) then b - 32 else b) <-> same_letter a b.
Proof. unfold same_letter. destruct ((97 <=? a) && (a <=? 122)) eqn:A; destruct ((97 <=? b) && (b <=? 122)) eqn:B; lia. Qed.
Lemma upper_same a : forall b, to_upper a = to_upper b <-> same_name a b.
Proof.
  induction a as [|x a IH]; intros [|y b]; unfold to_upper; cbn [map].
  - split; [constructor|reflexivity].
  - split; [discriminate|intros H; inversion H].
  - split; [discriminate|intros H; inversion H].
  - split; intros H.
    + assert (H1 := f_equal (hd 0) H). assert (H2 := f_equal (@tl Z) H). cbn [hd tl] in H1, H2. constructor; [apply upper_letter; exact H1|apply IH; exact H2].
    + inversion H as [|? ? ? ? H1 H2]; subst. apply upper_letter in H1. apply IH in H2. unfold to_upper in H2. rewrite H1, H2. reflexivity.
Qed.
Section Reg.
Variable M : Type.
Notation reg_all := (reg_all M).
Notation lookup := (lookup M).
Notation get := (get_tx_signer M).
Lemma reg_keeps m calls m' name x : reg_all m calls = Ok m' -> lookup m name = Some x -> lookup m' name = Some x.
Proof.
  revert m. induction calls as [|[n o] calls IH]; intros m E L; cbn [SignerModel.reg_all] in E; [congruence|].
  unfold reg_tx_signer in E. destruct o as [y|]; [|discriminate].
  destruct (lookup m (to_upper n)) eqn:Q; cbn [bind] in E; apply (IH _ E); [exact L|]. cbn [SignerModel.lookup].
  destruct (beq (to_upper n) name) eqn:C; [|exact L]. apply beq_eq in C. subst name. congruence.
Qed.
Lemma reg_lookup calls : forall m m' name, reg_all m calls = Ok m' -> lookup m (to_upper name) = None ->
  lookup m' (to_upper name) = match find (fun c => beq (to_upper (fst c)) (to_upper name)) calls with Some c => snd c | None => None end.
Proof.
  induction calls as [|[n o] calls IH]; intros m m' name E L; cbn [SignerModel.reg_all] in E; [cbn [find]; congruence|].
  unfold reg_tx_signer in E. destruct o as [y|]; [|discriminate]. cbn [find fst].
  destruct (beq (to_upper n) (to_upper name)) eqn:C.
  - apply beq_eq in C. rewrite C, L in E. cbn [bind] in E. cbn [snd]. apply (reg_keeps _ _ _ _ _ E). cbn [SignerModel.lookup]. rewrite beq_refl. reflexivity.
  - destruct (lookup m (to_upper n)) eqn:Q; cbn [bind] in E; apply (IH _ _ _ E); [exact L|]. cbn [SignerModel.lookup]. rewrite C. exact L.
Qed.
Lemma reg_total calls : forall m, Forall (fun c : list Z * option M => snd c <> None) calls -> exists m', reg_all m calls = Ok m'.
Proof.
  induction calls as [|[n o] calls IH]; intros m F; cbn [SignerModel.reg_all]; [eauto|]. inversion F as [|? ? H1 H2]; subst. cbn [snd] in H1.
  unfold reg_tx_signer. destruct o as [y|]; [|contradiction]. destruct (lookup m (to_upper n)); cbn [bind]; apply IH; exact H2.
Qed.
Lemma reg_panic calls : forall m n, In (n, @None M) calls -> reg_all m calls = Panic.
Proof.
  induction calls as [|[n' o] calls IH]; intros m n I; [contradiction|]. cbn [SignerModel.reg_all]. unfold reg_tx_signer.
  destruct I as [E|I]; [assert (o = None) by congruence; subst; reflexivity|]. destruct o as [y|]; [|reflexivity].
  destruct (lookup m (to_upper n')); cbn [bind]; eapply IH; exact I.
Qed.
End Reg.

(** ** C62 *)
(** After every history of registrations: a nil manager panics and nothing else does; the signer found under a symbol is
    that of the first registration under the same name up to ASCII case, and nil when there is none. *)
Theorem registry_first_wins : forall (M : Type) (calls : list (list Z * option M)),
  (reg_all M [] calls = Panic <-> exists n, In (n, None) calls) /\
  ((forall n, ~ In (n, None) calls) -> exists m, reg_all M [] calls = Ok m /\
    forall symbol,
      (forall x, get_tx_signer M m symbol = Some x <->
         exists before n after, calls = before ++ (n, Some x) :: after /\ same_name n symbol /\ forall n' o, In (n', o) before -> ~ same_name n' symbol) /\
      (get_tx_signer M m symbol = None <-> forall n o, In (n, o) calls -> ~ same_name n symbol)).
Proof.
  intros M calls.
  assert (NN : (forall n, ~ In (n, None) calls) -> Forall (fun c : list Z * option M => snd c <> None) calls).
  { intros N. apply Forall_forall. intros [n o] I E. cbn [snd] in E. subst. exact (N n I). }
  split; [split|].
  - intros P. destruct (Exists_dec (fun c : list Z * option M => snd c = None) calls) as [E|E].
    { intros [n [x|]]; cbn [snd]; [right; discriminate|left; reflexivity]. }
    + apply Exists_exists in E. destruct E as ([n o] & I & E). cbn [snd] in E. subst. eauto.
    + exfalso. destruct (reg_total M calls []) as [m' Q]; [|congruence]. apply Forall_forall. intros c I Q. apply E. apply Exists_exists. eauto.
  - intros [n I]. eapply reg_panic. exact I.
  - intros N. destruct (reg_total M calls [] (NN N)) as [m E]. exists m. split; [exact E|]. intros symbol.
    assert (L := reg_lookup M calls [] m symbol E eq_refl). unfold get_tx_signer. rewrite L.
    assert (Fd : match find (fun c : list Z * option M => beq (to_upper (fst c)) (to_upper symbol)) calls with
      | Some c => exists before after, calls = before ++ c :: after /\ same_name (fst c) symbol /\ (forall n' o, In (n', o) before -> ~ same_name n' symbol)
      | None => forall n o, In (n, o) calls -> ~ same_name n symbol end).
    { clear. induction calls as [|[n o] calls IH]; cbn [find]; [intros ? ? []|]. cbn [fst]. destruct (beq (to_upper n) (to_upper symbol)) eqn:C.
      - apply beq_eq, upper_same in C. exists [], calls. split; [reflexivity|]. split; [exact C|]. intros ? ? [].
      - assert (D : ~ same_name n symbol) by (intros Q; apply upper_same in Q; rewrite Q, beq_refl in C; discriminate).
        destruct (find _ calls) as [c|].
        + destruct IH as (b & a & -> & S & R). exists ((n, o) :: b), a. split; [reflexivity|]. split; [exact S|]. intros n' o' [Q|Q]; [assert (n' = n) by congruence; subst; exact D|eapply R; exact Q].
        + intros n' o' [Q|Q]; [assert (n' = n) by congruence; subst; exact D|eapply IH; exact Q]. }
    destruct (find _ calls) as [[n o]|].
    + destruct Fd as (b & a & Ec & S & R). cbn [fst snd] in *. split.
      * intros x. split.
        -- intros ->. eauto 6.
        -- intros (b' & n' & a' & Ec' & S' & R'). rewrite Ec in Ec'. clear - Ec' S S' R R'. revert b' Ec' R'.
           induction b as [|[n1 o1] b IH]; intros [|[n2 o2] b'] Ec' R'; cbn [app] in Ec'.
           ++ congruence.
           ++ exfalso. apply (R' n o); [left; congruence|exact S].
           ++ exfalso. apply (R n' (Some x)); [left; congruence|exact S'].
           ++ apply (IH) with (b' := b'); [intros ? ? Q; apply (R n'0 o0); right; exact Q|congruence|intros ? ? Q; apply (R' n'0 o0); right; exact Q].
      * split; [|intros Q; exfalso; apply (Q n o); [rewrite Ec; apply in_or_app; right; left; reflexivity|exact S]].
        intros ->. exfalso. apply (N n). rewrite Ec. apply in_or_app. right. left. reflexivity.
    + split; [|split; [intros _; exact Fd|reflexivity]]. intros x. split; [discriminate|].
      intros (b & n & a & -> & S & _). exfalso. apply (Fd n (Some x)); [apply in_or_app; right; left; reflexivity|exact S].
Qed.

(** The 25 names registered when the package is loaded keep their signers whatever is registered later, and neither NAS
    nor TRX is among them. *)
Theorem default_signers_fixed : forall (M : Type) (ms : list M) (more : list (list Z * option M)) m,
  length ms = length default_names ->
  reg_all M [] (combine default_names (map Some ms) ++ more) = Ok m ->
  (forall i name x symbol, nth_error default_names i = Some name -> nth_error ms i = Some x -> same_name name symbol -> get_tx_signer M m symbol = Some x) /\
  (more = [] -> forall symbol, (same_name symbol (ascii "NAS") \/ same_name symbol (ascii "TRX")) -> get_tx_signer M m symbol = None).
Proof.
  intros M ms more m L E.
  assert (ND : forall i j a b, nth_error default_names i = Some a -> nth_error default_names j = Some b -> to_upper a = to_upper b -> i = j).
  { assert (U : map to_upper default_names = default_names) by reflexivity.
    assert (N : NoDup default_names).
    { assert (Hd : forall (l : list (list Z)), (fix nd l := match l with [] => true | x :: r => negb (existsb (beq x) r) && nd r end) l = true -> NoDup l).
      { induction l as [|x r IH]; intros H; constructor; apply andb_true_iff in H; destruct H as [H1 H2]; [|apply IH; exact H2].
        intros I. apply negb_true_iff in H1. assert (existsb (beq x) r = true) by (apply existsb_exists; exists x; split; [exact I|apply beq_refl]). congruence. }
      apply Hd. vm_compute. reflexivity. }
    intros i j a b A B Q. rewrite <- U in N. apply (proj1 (NoDup_nth_error (map to_upper default_names)) N).
    - rewrite map_length. apply nth_error_Some. congruence.
    - erewrite !map_nth_error by eassumption. rewrite Q. reflexivity. }
  assert (Fd : forall symbol, lookup M m (to_upper symbol) = match find (fun c => beq (to_upper (fst c)) (to_upper symbol)) (combine default_names (map Some ms) ++ more) with Some c => snd c | None => None end).
  { intros symbol. apply (reg_lookup M _ [] m symbol E eq_refl). }
  split.
  - intros i name x symbol Hn Hx S. unfold get_tx_signer. rewrite Fd. clear Fd E. apply upper_same in S.
    assert (G : forall (ns : list (list Z)) (xs : list M) i, nth_error ns i = Some name -> nth_error xs i = Some x ->
      (forall j b, (j < i)%nat -> nth_error ns j = Some b -> to_upper b <> to_upper symbol) ->
      match find (fun c => beq (to_upper (fst c)) (to_upper symbol)) (combine ns (map Some xs) ++ more) with Some c => snd c | None => None end = Some x).
    { clear - S. induction ns as [|n ns IH]; intros [|y xs] [|i] A B C; cbn [nth_error] in *; try discriminate.
      - cbn [map combine app find fst]. assert (n = name) by congruence. subst. rewrite S, beq_refl. cbn [snd]. exact B.
      - cbn [map combine app find fst]. replace (beq (to_upper n) (to_upper symbol)) with false.
        + apply (IH xs i A B). intros j b Lj. apply (C (Datatypes.S j) b). lia.
        + symmetry. apply beq_neq. apply (C O n ltac:(lia) eq_refl). }
    apply (G default_names ms i Hn Hx). intros j b Lj Hb Q. assert (j = i) by (apply (ND j i b name Hb Hn); congruence). lia.
  - intros -> symbol S. unfold get_tx_signer. rewrite Fd, app_nil_r.
    assert (U : to_upper symbol = ascii "NAS" \/ to_upper symbol = ascii "TRX") by (destruct S as [S|S]; apply upper_same in S; [left|right]; exact S).
    assert (G : forall (xs : list M), find (fun c => beq (to_upper (fst c)) (to_upper symbol)) (combine default_names (map Some xs)) = None).
    { intros xs. assert (A : forall n, In n default_names -> beq (to_upper n) (to_upper symbol) = false).
      { assert (Q : forallb (fun n => negb (beq (to_upper n) (ascii "NAS")) && negb (beq (to_upper n) (ascii "TRX"))) default_names = true) by (vm_compute; reflexivity).
        rewrite forallb_forall in Q. intros n I. specialize (Q n I). apply andb_true_iff in Q. destruct Q as [Q1 Q2]. apply negb_true_iff in Q1, Q2. destruct U as [-> | ->]; assumption. }
      revert A. generalize default_names. clear. intros ns. revert xs. induction ns as [|n ns IH]; intros [|x xs] A; cbn [map combine find]; try reflexivity.
      cbn [fst]. rewrite (A n (or_introl eq_refl)). apply IH. intros n' I. apply A. right. exact I. }
    rewrite G. reflexivity.
Qed.

(** ** C85 *)
(** SignTxHash: a registered signer is always used; NAS and TRX (any case) use the deterministic signer, every other
    symbol the plain one with the 16-bit truncation of the message length, and for secp256k1 the s value is normalised. *)
Theorem sign_tx_hash_dispatch : forall (M : Type) hmac pre ecc_sign gen_pub success failure (msign : M -> bytes -> bytes -> Z -> res bytes) plain secp fuel m symbol msg key ecc,
  let run := sign_tx_hash hmac pre ecc_sign gen_pub success failure M msign plain secp fuel m symbol msg key ecc in
  let det := det_signature hmac pre ecc_sign gen_pub success failure fuel key msg in
  (forall s, get_tx_signer M m symbol = Some s -> run = Some (msign s msg key ecc)) /\
  (get_tx_signer M m symbol = None ->
    let special := same_name symbol (ascii "NAS") \/ same_name symbol (ascii "TRX") in
    (special -> (forall sig, run = Some (Ok sig) <-> det = Some (Ok (sig, success))) /\ (run = Some Panic <-> det = Some Panic) /\ (run = None <-> det = None)) /\
    (~ special -> ecc <> secp -> forall sig st, plain key msg (zlen msg mod 65536) ecc = (sig, st) -> run = Some (if st =? success then Ok sig else Err)) /\
    (~ special -> ecc = secp -> forall sig st, plain key msg (zlen msg mod 65536) ecc = (sig, st) ->
       (st <> success -> run = Some Err) /\
       (st = success -> forall r s, sig = r ++ s -> length r = 32%nat -> length s = 32%nat -> is_bytes s -> be_num s <= secp_order ->
          exists s', run = Some (Ok (r ++ s')) /\ be_num s' = Z.min (be_num s) (secp_order - be_num s)))).
Proof.
  intros M hmac pre ecc_sign gen_pub success failure msign plain secp fuel m symbol msg key ecc. cbv zeta.
  unfold sign_tx_hash. split; [intros s ->; reflexivity|]. intros ->.
  assert (EF : forall n, equal_fold symbol n = true <-> same_name symbol n).
  { intros n. unfold equal_fold. rewrite <- upper_same. split; [apply beq_eq|intros ->; apply beq_refl]. }
  set (det := det_signature hmac pre ecc_sign gen_pub success failure fuel key msg).
  assert (SP : (same_name symbol (ascii "NAS") \/ same_name symbol (ascii "TRX")) ->
    (if equal_fold symbol (ascii "NAS") then status_ok success det else if equal_fold symbol (ascii "TRX") then status_ok success det else
       if ecc =? secp then let '(sig, ret) := plain key msg (u16 (zlen msg)) ecc in Some (if negb (ret =? success) then Err else serialize_s secp_order secp_half sig)
       else let '(sig, ret) := plain key msg (u16 (zlen msg)) ecc in Some (if negb (ret =? success) then Err else Ok sig)) = status_ok success det).
  { intros [H|H]; apply EF in H; rewrite H; [reflexivity|]. destruct (equal_fold symbol (ascii "NAS")); reflexivity. }
  split; [|split].
  - intros H. rewrite (SP H). unfold status_ok. destruct det as [[[sig ret]| |]|]; cbn [bind].
    + destruct (Z.eqb_spec ret success) as [E|E].
      * split; [intros sig'; split; [intros Q; congruence|intros Q; congruence]|]. split; split; discriminate.
      * split; [intros sig'; split; [discriminate|intros Q; exfalso; congruence]|]. split; split; discriminate.
    + split; [intros sig'; split; discriminate|]. split; split; discriminate.
    + split; [intros sig'; split; discriminate|]. split; split; try discriminate; reflexivity.
    + split; [intros sig'; split; discriminate|]. split; split; try discriminate; reflexivity.
  - intros N E sig st P. replace (equal_fold symbol (ascii "NAS")) with false by (symmetry; apply not_true_iff_false; rewrite EF; tauto).
    replace (equal_fold symbol (ascii "TRX")) with false by (symmetry; apply not_true_iff_false; rewrite EF; tauto).
    apply Z.eqb_neq in E. rewrite E. unfold u16. change (2 ^ 16) with 65536. rewrite P. destruct (st =? success); reflexivity.
  - intros N E sig st P. replace (equal_fold symbol (ascii "NAS")) with false by (symmetry; apply not_true_iff_false; rewrite EF; tauto).
    replace (equal_fold symbol (ascii "TRX")) with false by (symmetry; apply not_true_iff_false; rewrite EF; tauto).
    apply Z.eqb_eq in E. rewrite E. unfold u16. change (2 ^ 16) with 65536. rewrite P. split.
    + intros Q. apply Z.eqb_neq in Q. rewrite Q. reflexivity.
    + intros -> r s -> Lr Ls Bs Le. rewrite Z.eqb_refl. cbn [negb].
      destruct (normalised_low_s secp_order secp_half r s (or_introl (conj eq_refl eq_refl)) Lr Bs Ls) as (s' & E' & _ & _ & _ & _ & Mn).
      exists s'. rewrite E'. split; [reflexivity|apply Mn; exact Le].
Qed.
(** With a key that is not a scalar below the order, NAS and TRX report an error (the status is 0), unless the success
    constant is itself 0. *)
Theorem nas_trx_invalid_key : forall (M : Type) hmac pre ecc_sign gen_pub success failure (msign : M -> bytes -> bytes -> Z -> res bytes) plain secp fuel m symbol msg key ecc,
  get_tx_signer M m symbol = None -> (same_name symbol (ascii "NAS") \/ same_name symbol (ascii "TRX")) -> success <> 0 ->
  length msg = 32%nat -> is_bytes key -> (32 <= length key)%nat -> scalar_ok (be_num (firstn 32 key)) = false ->
  sign_tx_hash hmac pre ecc_sign gen_pub success failure M msign plain secp fuel m symbol msg key ecc = Some Err.
Proof.
  intros M hmac pre ecc_sign gen_pub success failure msign plain secp fuel m symbol msg key ecc N S NZ L B K Bad.
  destruct (signer_bad_arguments hmac pre ecc_sign gen_pub success failure fuel key msg) as (_ & _ & D). specialize (D L B K Bad).
  unfold sign_tx_hash. rewrite N.
  assert (Q : status_ok success (det_signature hmac pre ecc_sign gen_pub success failure fuel key msg) = Some Err).
  { rewrite D. cbn [status_ok bind]. replace (0 =? success) with false by (symmetry; apply Z.eqb_neq; congruence). reflexivity. }
  destruct S as [S|S]; apply upper_same in S; unfold equal_fold; rewrite S, ?beq_refl; [exact Q|]. destruct (beq _ _); exact Q.
Qed.

(** ** Examples *)
Example ex_same_name : same_name (ascii "eThNas") (ascii "ETHnas").
Proof. apply upper_same. reflexivity. Qed.
Example ex_registry : exists m, reg_all nat [] [(ascii "eth", Some 1%nat); (ascii "ETH", Some 2%nat); (ascii "Nas", Some 3%nat)] = Ok m /\
  get_tx_signer nat m (ascii "Eth") = Some 1%nat /\ get_tx_signer nat m (ascii "nas") = Some 3%nat /\ get_tx_signer nat m (ascii "TRX") = None.
Proof. eexists. split; [reflexivity|]. split; [reflexivity|]. split; reflexivity. Qed.
Example ex_defaults : exists m, reg_all nat [] (combine default_names (map Some (seq 0 25)) ++ [(ascii "eth", Some 99%nat)]) = Ok m /\ get_tx_signer nat m (ascii "eth") = Some 10%nat.
Proof.
  destruct (reg_total nat (combine default_names (map Some (seq 0 25)) ++ [(ascii "eth", Some 99%nat)]) []) as [m E].
  - apply Forall_forall. intros [n o] I. apply in_app_or in I. destruct I as [I|[I|[]]]; [|injection I as <- <-; discriminate].
    apply in_combine_r in I. apply in_map_iff in I. destruct I as (x & <- & _). discriminate.
  - exists m. split; [exact E|]. apply (proj1 (default_signers_fixed nat (seq 0 25) _ m eq_refl E) 10%nat (ascii "ETH")); try reflexivity. apply upper_same. reflexivity.
Qed.

Print Assumptions registry_first_wins.
Print Assumptions default_signers_fixed.
Print Assumptions sign_tx_hash_dispatch.
Print Assumptions nas_trx_invalid_key.
