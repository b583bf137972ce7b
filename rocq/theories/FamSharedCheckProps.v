(** C155: exactly when checking a Bitcoin-family transaction crashes, whatever scripts are to be unlocked and whatever the inputs show. *)
From Coq Require Import String ZArith List Bool Lia ZifyBool ZifyNat.
From Verif Require Import Go GoFacts GoFacts2 Rd Base58CheckSpec Base58CheckProofs Bech32Model SigModel SigDerProps BtcModel BtcSpec BtcProofs BtcTxProofs BtcSigProps BtcVerModel BtcVerProps
  BtcDecodeProps FamModel FamProofs FamSigProofs FamSigProps FamPanicProps FamCheckProps Toy.
From Verif Require CreatePanicProps BtcTxProps BtcMultiProps.
Import ListNotations.
Open Scope Z_scope.
Ltac Zify.zify_post_hook ::= idtac.

(** ** Specification *)
(** The first element that [fine] does not cover is one that is [bad]. *)
Definition meets {A} (fine bad : A -> Prop) (l : list A) : Prop := exists before x after, l = before ++ x :: after /\ Forall fine before /\ bad x.
(** What an input shows for the script it unlocks. An entry of a shared script has one place per key, another entry has one place. *)
Definition places (th : txhash) : nat := Nat.max 1 (length (th_multi th)).
Definition is_shared (th : txhash) : Prop := th_multi th <> [].
Definition single_types : list Z := [TypeP2PKH; TypeP2WPKH; TypeBech32].
Inductive shows (i : txin) (th : txhash) : list sigpub -> Prop :=
| shows_none : ~ In (in_type i) single_types -> in_type i <> TypeMultiSig -> shows i th (repeat no_sigpub (places th))
| shows_one sig pub t : In (in_type i) single_types -> ~ is_shared th -> decode_script (in_sig i) = Ok (sig, pub, t) -> shows i th [{| sp_sig := sig; sp_pub := pub |}]
| shows_many sps : in_type i = TypeMultiSig -> decode_multi (in_multi i) = Ok sps -> zlen sps <= zlen (th_multi th) -> shows i th (map fst sps ++ repeat no_sigpub (places th - length sps)).
(** A list of signatures with a redeem script that makes the reader crash: an empty script with a long length in front, a redeem script of less than three bytes, or one that has
    fewer keys than it says; [keys] are those before the end of the script is met. *)
Definition keys_stuck (wanted : Z) (keys : list bytes) (rest : bytes) : Prop :=
  zlen keys < wanted /\ (rest = [] \/ (hd 0 rest = 0x21 /\ (zlen rest = 31 \/ ((zlen rest = 32 \/ zlen rest = 33) /\ zlen keys + 1 < wanted)))).
Definition script_stuck (s : bytes) : Prop :=
  s = [0xFD; 0; 0] \/
  exists pre rest sigs push q body,
    s = pre ++ 0 :: rest /\ (pre = [] \/ (pre = [zlen rest + 1] /\ zlen rest + 1 <> 0xFD) \/ exists l, pre = 0xFD :: l /\ zlen l = 2 /\ le_num l = zlen rest + 1) /\
    multi_sigs (length rest) rest = Ok (sigs, push ++ q :: body) /\
    ((push = [zlen body + 1] /\ zlen body + 1 <> 0x4C /\ zlen body + 1 <> 0x4D) \/ push = [0x4C; zlen body + 1] \/ exists l, push = 0x4D :: l /\ zlen l = 2 /\ le_num l = zlen body + 1) /\
    (q - 0x50) mod 256 = zlen sigs /\ last (q :: body) 0 = 0xAE /\
    (zlen body < 2 \/ exists (keys : list bytes) p n, body = concat (map (cons 0x21) keys) ++ p ++ [n; 0xAE] /\ Forall (fun k => zlen k = 33) keys /\ keys_stuck (n - 0x50) keys p).
(** An input that crashes the check against its entry: a single signature for a shared script, an unreadable shared script, or more keys or signatures than there are places. *)
Definition mismatch (i : txin) (th : txhash) : Prop :=
  (In (in_type i) single_types /\ is_shared th /\ exists r, decode_script (in_sig i) = Ok r) \/
  (in_type i = TypeMultiSig /\ (script_stuck (in_multi i) \/ exists sps, decode_multi (in_multi i) = Ok sps /\ zlen (th_multi th) < zlen sps)).

Section Signatures.
Variables (decompress : bytes -> bytes) (ecdsa : bytes -> bytes -> bytes -> bool).
Definition point (k : bytes) : Prop := decompress k <> [].
Definition accepts (msg s k : bytes) : Prop := point k /\ ecdsa (tl (decompress k)) msg s = true.
Definition refuses (msg s k : bytes) : Prop := point k /\ ecdsa (tl (decompress k)) msg s = false.
(** A signature tried against keys in order: accepted by one, refused by all, or a key that is no point of the curve is met ([None]). *)
Definition tried (msg s : bytes) (keys : list bytes) (r : option bool) : Prop :=
  match r with
  | Some true => meets (refuses msg s) (accepts msg s) keys
  | Some false => Forall (refuses msg s) keys
  | None => meets (refuses msg s) (fun k => ~ point k) keys
  end.
(** Signatures are tried in order, each against the keys from the number of signatures accepted so far on; the number accepted in the end, or [None] for a crash. *)
Inductive walk (msg : bytes) (keys : list bytes) : list bytes -> nat -> option nat -> Prop :=
| walk_end c : walk msg keys [] c (Some c)
| walk_step s r c found o : tried msg s (skipn c keys) (Some found) -> walk msg keys r (if found : bool then S c else c) o -> walk msg keys (s :: r) c o
| walk_crash s r c : tried msg s (skipn c keys) None -> walk msg keys (s :: r) c None.
Definition sigs_of (th : txhash) (l : list sigpub) : list bytes := firstn (Z.to_nat (th_required th)) (map sp_sig l).
Definition entry_valid (th : txhash) (l : list sigpub) : Prop :=
  if th_required th =? 0 then Forall (fun sp => accepts (message th) (sp_sig sp) (sp_pub sp)) l
  else walk (message th) (map sp_pub l) (sigs_of th l) 0 (Some (Z.to_nat (th_required th))).
Definition entry_crash (th : txhash) (l : list sigpub) : Prop :=
  if th_required th =? 0 then Exists (fun sp => ~ point (sp_pub sp)) l
  else walk (message th) (map sp_pub l) (sigs_of th l) 0 None.
(** Checking the inputs against the entries crashes. *)
Definition check_crash (ins : list txin) (ths : list txhash) : Prop :=
  meets (fun p => exists l, shows (fst p) (snd p) l) (fun p => mismatch (fst p) (snd p)) (combine ins ths) \/
  exists ls, Forall2 (fun p l => shows (fst p) (snd p) l) (combine ins ths) ls /\ meets (fun e => entry_valid (fst e) (snd e)) (fun e => entry_crash (fst e) (snd e)) (combine ths ls).

(** ** Trying signatures *)
Lemma scan_keys_tried msg s l : exists r, tried msg s (map (fun m => sp_pub (m_sp m)) l) r /\ scan_keys decompress ecdsa msg s l = match r with Some b => Ok b | None => Panic end.
Proof.
  induction l as [|m l (r & T & E)]; cbn [map scan_keys]; [exists (Some false); split; [constructor|reflexivity]|]. set (k := sp_pub (m_sp m)). destruct (decompress k) as [|c q] eqn:D.
  - exists None. split; [|reflexivity]. exists [], k, (map (fun m => sp_pub (m_sp m)) l). split; [reflexivity|]. split; [constructor|]. unfold point. rewrite D. auto.
  - rewrite slice_from_cons. cbn [bind]. destruct (ecdsa q msg s) eqn:V.
    + exists (Some true). split; [|reflexivity]. exists [], k, (map (fun m => sp_pub (m_sp m)) l). split; [reflexivity|]. split; [constructor|]. unfold accepts, point. rewrite D. split; [discriminate|exact V].
    + exists r. split; [|exact E]. assert (R : refuses msg s k) by (unfold refuses, point; rewrite D; split; [discriminate|exact V]).
      destruct r as [[|]|]; cbn [tried] in *; [|constructor; assumption|]; destruct T as (a & x & b & -> & F & X); exists (k :: a), x, b; (split; [reflexivity|]); (split; [constructor; assumption|exact X]).
Qed.
Lemma meets_two {A} (fine b1 b2 : A -> Prop) l : (forall x, b1 x -> ~ fine x) -> (forall x, b2 x -> ~ fine x) -> (forall x, b1 x -> ~ b2 x) -> meets fine b1 l -> meets fine b2 l -> False.
Proof.
  intros H1 H2 H3 (a & x & b & E & F & X). revert l E. induction a as [|y a IH]; intros l E (a' & x' & b' & E' & F' & X'); rewrite E in E'.
  - destruct a' as [|y' a']; cbn [app] in E'; injection E' as -> _; [exact (H3 _ X X')|]. inversion F'; subst. exact (H1 _ X ltac:(assumption)).
  - apply Forall_cons_iff in F as [Fy F]. destruct a' as [|y' a']; cbn [app] in E'; injection E' as <- E'; [exact (H2 _ X' Fy)|]. apply Forall_cons_iff in F' as [_ F']. apply (IH F _ eq_refl). exists a', x', b'. auto.
Qed.
Lemma meets_not_all {A} (fine bad : A -> Prop) l : (forall x, bad x -> ~ fine x) -> meets fine bad l -> ~ Forall fine l.
Proof. intros N (a & x & b & -> & _ & X) F. apply Forall_app in F as [_ F]. apply Forall_cons_iff in F as [F _]. exact (N _ X F). Qed.
Lemma tried_unique msg s l r r' : tried msg s l r -> tried msg s l r' -> r = r'.
Proof.
  assert (A1 : forall x, accepts msg s x -> ~ refuses msg s x) by (intros x [_ A] [_ B]; congruence).
  assert (A2 : forall x, ~ point x -> ~ refuses msg s x) by (intros x A [B _]; contradiction).
  assert (A3 : forall x, accepts msg s x -> ~ ~ point x) by (intros x [A _] B; contradiction).
  destruct r as [[|]|], r' as [[|]|]; cbn [tried]; intros T T'; try reflexivity; exfalso;
    first [exact (meets_two _ _ _ _ A1 A2 A3 T T') | exact (meets_two _ _ _ _ A1 A2 A3 T' T) | exact (meets_not_all _ _ _ A1 T T') | exact (meets_not_all _ _ _ A1 T' T) | exact (meets_not_all _ _ _ A2 T T') | exact (meets_not_all _ _ _ A2 T' T)].
Qed.
Lemma walk_unique msg keys sigs : forall c o o', walk msg keys sigs c o -> walk msg keys sigs c o' -> o = o'.
Proof.
  induction sigs as [|s r IH]; intros c o o' W W'; inversion W as [|? ? ? f1 ? T1 W1|? ? ? T1]; subst; inversion W' as [|? ? ? f2 ? T2 W2|? ? ? T2]; subst; try reflexivity.
  - pose proof (tried_unique _ _ _ _ _ T1 T2) as Q. injection Q as <-. exact (IH _ _ _ W1 W2).
  - pose proof (tried_unique _ _ _ _ _ T1 T2). discriminate.
  - pose proof (tried_unique _ _ _ _ _ T1 T2). discriminate.
Qed.
Lemma scan_walk msg ms : forall n i c, (i + n <= length ms)%nat -> (c <= i)%nat ->
  exists o, walk msg (map (fun m => sp_pub (m_sp m)) ms) (firstn n (skipn i (map (fun m => sp_sig (m_sp m)) ms))) c o /\ scan_sigs decompress ecdsa msg ms n i c = match o with Some k => Ok k | None => Panic end.
Proof.
  induction n as [|n IH]; intros i c Li Lc; cbn [scan_sigs]; [exists (Some c); split; [constructor|reflexivity]|].
  replace (length ms <=? c)%nat with false by lia. destruct (nth_error ms i) as [m|] eqn:Ni; [|apply nth_error_None in Ni; lia].
  assert (Sk : skipn i (map (fun m => sp_sig (m_sp m)) ms) = sp_sig (m_sp m) :: skipn (S i) (map (fun m => sp_sig (m_sp m)) ms)).
  { clear - Ni. revert i Ni. induction ms as [|y ms IHm]; intros [|i] Ni; try discriminate; cbn [map skipn]; [cbn in Ni; congruence|]. apply IHm. exact Ni. }
  rewrite Sk. cbn [firstn]. destruct (scan_keys_tried msg (sp_sig (m_sp m)) (skipn c ms)) as (r & T & E). rewrite E. rewrite <- skipn_map in T. destruct r as [b|]; cbn [bind].
  - destruct (IH (S i) (if b then S c else c)) as (o & W & Eo); [lia|destruct b; lia|]. exists o. split; [eapply walk_step; eassumption|exact Eo].
  - exists None. split; [apply walk_crash; exact T|reflexivity].
Qed.

(** ** Entries *)
Definition entry (th : txhash) : Prop :=
  (th_required th = 0 /\ (exists n, th_normal th = Some n /\ n_sp n = no_sigpub) /\ th_multi th = []) \/
  (1 <= th_required th <= zlen (th_multi th) /\ th_normal th = None /\ Forall (fun m => m_sp m = no_sigpub) (th_multi th)).
Definition filled_as (th th' : txhash) (l : list sigpub) : Prop :=
  th_hash th' = th_hash th /\ th_required th' = th_required th /\
  ((th_required th = 0 /\ exists n, th_normal th' = Some n /\ l = [n_sp n]) \/ (1 <= th_required th <= zlen (th_multi th') /\ map m_sp (th_multi th') = l)).
Lemma check_entry th th' l : filled_as th th' l -> (check_hash decompress ecdsa th' = Ok true <-> entry_valid th l) /\ (check_hash decompress ecdsa th' = Panic <-> entry_crash th l).
Proof.
  intros (Hh & Hr & C). unfold check_hash, entry_valid, entry_crash, message. rewrite Hh, Hr. set (msg := match hex_decode (th_hash th) with Ok h => h | _ => [] end). destruct C as [(R & n & Nn & ->)|(R & <-)].
  - rewrite R. change (0 =? 0) with true. cbv iota. rewrite Nn. unfold accepts, point. destruct (decompress (sp_pub (n_sp n))) as [|c q] eqn:D.
    + cbn. split; split; intros Q; try discriminate; try reflexivity.
      * apply Forall_cons_iff in Q as [[Q _] _]. exfalso. apply Q. exact D.
      * constructor. rewrite D. auto.
    + rewrite slice_from_cons. cbn [bind]. split; split; intros Q; try discriminate.
      * constructor; [|constructor]. rewrite D. split; [discriminate|]. cbn [tl]. congruence.
      * apply Forall_cons_iff in Q as [[_ Q] _]. rewrite D in Q. cbn [tl] in Q. congruence.
      * inversion Q as [? ? Q'|? ? Q']; subst; [exfalso; apply Q'; rewrite D; discriminate|inversion Q'].
  - replace (th_required th =? 0) with false by lia. unfold sigs_of. rewrite !map_map. destruct (scan_walk msg (th_multi th') (Z.to_nat (th_required th)) 0 0) as (o & W & E); [unfold zlen in R; lia|lia|]. cbn [skipn] in W. rewrite E. destruct o as [k|]; cbn [bind].
    + split; split; intros Q; try discriminate.
      * injection Q as Q. replace (Z.to_nat (th_required th)) with k at 2 by lia. exact W.
      * pose proof (walk_unique _ _ _ _ _ _ W Q) as U. injection U as ->. f_equal. lia.
      * pose proof (walk_unique _ _ _ _ _ _ W Q) as U. discriminate.
    + split; split; intros Q; try discriminate; try reflexivity; [|exact W]. pose proof (walk_unique _ _ _ _ _ _ W Q) as U. discriminate.
Qed.
Lemma check_all_panics l : check_all decompress ecdsa l = Panic <-> meets (fun t => check_hash decompress ecdsa t = Ok true) (fun t => check_hash decompress ecdsa t = Panic) l.
Proof.
  induction l as [|t l IH]; cbn [check_all].
  - split; [discriminate|]. intros ([|? ?] & x & post & Q & _); discriminate.
  - rewrite CreatePanicProps.bindp. split.
    + intros [E|(ok & E & P)]; [exists [], t, l; split; [reflexivity|]; split; [constructor|exact E]|]. destruct ok; [|discriminate]. apply IH in P as (a & x & b & -> & F & X). exists (t :: a), x, b. split; [reflexivity|]. split; [constructor; assumption|exact X].
    + intros (a & x & b & Q & F & X). destruct a as [|y a]; cbn [app] in Q; injection Q as <- ->; [left; exact X|]. right. apply Forall_cons_iff in F as [Fy F]. exists true. split; [exact Fy|]. apply IH. exists a, x, b. auto.
Qed.
Lemma meets_map2 {A B} (R : A -> B -> Prop) (f1 b1 : A -> Prop) (f2 b2 : B -> Prop) l m : (forall x y, R x y -> (f1 x <-> f2 y) /\ (b1 x <-> b2 y)) -> Forall2 R l m -> meets f1 b1 l <-> meets f2 b2 m.
Proof.
  intros H F. split.
  - intros (a & x & b & -> & Fa & X). apply Forall2_app_inv_l in F as (m1 & m2 & F1 & F2 & ->). inversion F2 as [|? y ? m3 Rx F3]; subst. exists m1, y, m3. split; [reflexivity|]. split; [|apply (H _ _ Rx); exact X]. clear - H F1 Fa. induction F1 as [|u v l l' Ruv F1 IH]; [constructor|]. apply Forall_cons_iff in Fa as [Fu Fa]. constructor; [apply (H _ _ Ruv); exact Fu|auto].
  - intros (a & x & b & -> & Fa & X). apply Forall2_app_inv_r in F as (m1 & m2 & F1 & F2 & ->). inversion F2 as [|y ? m3 ? Rx F3]; subst. exists m1, y, m3. split; [reflexivity|]. split; [|apply (H _ _ Rx); exact X]. clear - H F1 Fa. induction F1 as [|u v l l' Ruv F1 IH]; [constructor|]. apply Forall_cons_iff in Fa as [Fu Fa]. constructor; [apply (H _ _ Ruv); exact Fu|auto].
Qed.
End Signatures.

(** ** Reading a shared script *)
Lemma firstn_bytes n l : is_bytes l -> is_bytes (firstn n l).
Proof. intros B. rewrite <- (firstn_skipn n l) in B. apply is_bytes_app in B. apply B. Qed.
Lemma skipn_bytes n l : is_bytes l -> is_bytes (skipn n l).
Proof. intros B. rewrite <- (firstn_skipn n l) in B. apply is_bytes_app in B. apply B. Qed.
Lemma taken_bytes R : is_bytes R -> is_bytes (taken R).
Proof. intros B. unfold taken. apply is_bytes_app. split; [unfold zeros; apply Forall_forall; intros x I; apply repeat_spec in I as ->; unfold is_byte; lia|]. destruct (_ =? _)%nat; [|exact B]. destruct R; [constructor|]. apply is_bytes_cons in B. apply B. Qed.
Lemma multi_sigs_np : forall fuel rest, is_bytes rest -> multi_sigs fuel rest <> Panic.
Proof.
  induction fuel as [|f IH]; intros rest B; destruct rest as [|a [|b rest]]; cbn [multi_sigs]; try discriminate; (destruct (negb (b =? 48)); [discriminate|]); [discriminate|].
  assert (Ha : is_byte a) by (apply is_bytes_cons in B; apply B). unfold is_byte in Ha. match goal with |- need ?n ?r ?k <> _ => destruct (need_cases n r k ltac:(lia)) as [[_ ->]|(s & tail & Er & _ & ->)] end; [discriminate|].
  rewrite Er in B. apply is_bytes_app in B as [Bs Bt]. intros P. destruct (signature_script_accepts_exactly s tail Bs) as [NP A]. apply CreatePanicProps.bindp in P as [P|([[sig st] rest'] & E & P)]; [contradiction|].
  apply CreatePanicProps.bindp in P as [P|([t r] & _ & P)]; [|discriminate]. revert P. apply IH.
  apply A in E as (R & S & t0 & L1 & L2 & Es & _ & El). rewrite Es, sig_script_head0 in Bs. destruct (head_bytes _ _ _ Bs) as [BR BS]. apply is_bytes_app in Bs as [_ Bt0].
  assert (X : is_bytes (st :: rest')); [|apply is_bytes_cons in X; apply X]. rewrite El. unfold left_after, overwritten. apply firstn_bytes. apply is_bytes_app. split; [apply skipn_bytes, taken_bytes; exact BS|]. apply skipn_bytes. apply is_bytes_cons. split; [apply is_bytes_cons in Bt0; apply Bt0|exact Bt].
Qed.
Lemma concat_keys_len keys : Forall (fun k : bytes => zlen k = 33) keys -> zlen (concat (map (cons 0x21) keys)) = 34 * zlen keys.
Proof. induction 1 as [|k l L F IH]; [reflexivity|]. cbn [map concat]. rewrite zlen_app, !zlen_cons, IH. lia. Qed.
Lemma idx_past {A} (l : list A) i : zlen l <= i -> idx l i = Panic.
Proof. intros L. unfold idx. destruct (i <? 0); [reflexivity|]. assert (E : nth_error l (Z.to_nat i) = None) by (apply nth_error_None; unfold zlen in L; lia). rewrite E. reflexivity. Qed.
Lemma app_inj_zlen {A} (a b c d : list A) : a ++ b = c ++ d -> zlen a = zlen c -> a = c /\ b = d.
Proof.
  revert c. induction a as [|x a IH]; intros [|y c] E L; rewrite ?zlen_cons in L; try (pose proof (zlen_nonneg a)); try (pose proof (zlen_nonneg c)); try (change (zlen (@nil A)) with 0 in L; lia); [auto|]. cbn [app] in E. injection E as -> E. destruct (IH c E ltac:(lia)) as [-> ->]. auto.
Qed.
Definition pubs_stuck (n : nat) (p : bytes) : Prop := exists (keys : list bytes) P, p = concat (map (cons 0x21) keys) ++ P /\ Forall (fun k => zlen k = 33) keys /\ keys_stuck (Z.of_nat n) keys P.
Lemma multi_pubs_stuck x y : forall n done p, multi_pubs n (zlen (done ++ p ++ [x; y]) + 1) (zlen done) (done ++ p) (done ++ p ++ [x; y]) = Panic <-> pubs_stuck n p.
Proof.
  induction n as [|n IH]; intros done p; cbn [multi_pubs].
  { split; [discriminate|]. intros (keys & P & _ & _ & L & _). pose proof (zlen_nonneg keys). lia. }
  assert (Lz : zlen (done ++ p ++ [x; y]) = zlen done + zlen p + 2) by (rewrite !zlen_app; change (zlen [x; y]) with 2; lia). pose proof (zlen_nonneg p) as Np. pose proof (zlen_nonneg done) as Nd.
  replace (_ <? zlen done + 1) with false by lia. destruct p as [|b p].
  { rewrite app_nil_r, idx_past by lia. split; [intros _|reflexivity]. exists [], []. split; [reflexivity|]. split; [constructor|]. split; [change (zlen (@nil bytes)) with 0; lia|left; reflexivity]. }
  rewrite idx_mid by reflexivity. cbn [bind]. destruct (b =? 33) eqn:Eb; cbn [negb].
  2:{ split; [discriminate|]. intros (keys & P & E & _ & _ & C). exfalso. destruct keys as [|k keys]; cbn [map concat app] in E; [|injection E as -> _; discriminate]. subst P. destruct C as [C|[C _]]; [discriminate|]. cbn [hd] in C. lia. }
  assert (b = 33) by lia. subst b. clear Eb. rewrite zlen_cons in Lz, Np.
  assert (Small : zlen p < 33 -> pubs_stuck (S n) (33 :: p) <-> zlen p = 30 \/ ((zlen p = 31 \/ zlen p = 32) /\ (1 <= n)%nat)).
  { intros Sp. split.
    - intros (keys & P & E & F & L & C). destruct keys as [|k keys].
      + cbn [map concat app] in E. subst P. change (zlen (@nil bytes)) with 0 in *. rewrite zlen_cons in C. destruct C as [C|[_ C]]; [discriminate|]. lia.
      + exfalso. apply (f_equal zlen) in E. rewrite zlen_app, concat_keys_len, !zlen_cons in E by exact F. pose proof (zlen_nonneg P). pose proof (zlen_nonneg keys). lia.
    - intros C. exists [], (33 :: p). split; [reflexivity|]. split; [constructor|]. unfold keys_stuck. change (zlen (@nil bytes)) with 0. rewrite zlen_cons. split; [lia|]. right. split; [reflexivity|]. lia. }
  destruct (_ <? zlen done + 1 + 33) eqn:Q1.
  { split; [discriminate|]. rewrite Small by lia. lia. }
  destruct (Z.eq_dec (zlen p) 30) as [E30|E30].
  { assert (Es : slice (done ++ (33 :: p) ++ [x; y]) (zlen done + 1) (zlen done + 1 + 33) = Panic) by (apply slice_panic; lia). rewrite Es. cbn [bind]. rewrite Small by lia. split; auto. }
  assert (Es : exists k, slice (done ++ (33 :: p) ++ [x; y]) (zlen done + 1) (zlen done + 1 + 33) = Ok k).
  { pose proof (slice_panic (done ++ (33 :: p) ++ [x; y]) (zlen done + 1) (zlen done + 1 + 33)) as SP. unfold slice in *. destruct (_ && _ && _); [eauto|]. exfalso. apply (proj1 SP eq_refl). lia. }
  destruct Es as (k & Es). rewrite Es. cbn [bind]. rewrite CreatePanicProps.bindp.
  assert (Simp : forall X : res (list bytes), (X = Panic \/ exists t, X = Ok t /\ Ok (k :: t) = @Panic (list bytes)) <-> X = Panic) by (intros X; split; [intros [W|(? & _ & W)]; [exact W|discriminate]|auto]). rewrite Simp. clear Simp.
  destruct (Z_lt_dec (zlen p) 33) as [Sp|Sp].
  - rewrite Small by exact Sp. destruct n as [|n]; cbn [multi_pubs]; [split; [discriminate|lia]|]. replace (_ <? zlen done + 1 + 33 + 1) with false by lia. rewrite idx_past by (rewrite zlen_app, zlen_cons; lia). split; [lia|reflexivity].
  - set (key := firstn 33 p). set (q := skipn 33 p). assert (Ep : p = key ++ q) by (symmetry; apply firstn_skipn). assert (Lk : zlen key = 33) by (unfold key, zlen in *; rewrite firstn_length; lia).
    assert (Ed : forall z, done ++ (33 :: p) ++ z = (done ++ 33 :: key) ++ q ++ z) by (intros z; rewrite Ep; rewrite <- !app_assoc; cbn [app]; rewrite <- !app_assoc; reflexivity).
    pose proof (Ed []) as Ed0. rewrite !app_nil_r in Ed0. rewrite Ed, Ed0. replace (zlen done + 1 + 33) with (zlen (done ++ 33 :: key)) by (rewrite zlen_app, zlen_cons; lia). rewrite IH. unfold pubs_stuck, keys_stuck. split.
    + intros (keys & P & E & F & L & C). exists (key :: keys), P. split; [cbn [map concat]; rewrite <- app_assoc, <- E, Ep; reflexivity|]. split; [constructor; assumption|]. rewrite zlen_cons. split; [lia|]. destruct C as [C|[C1 [C|C]]]; [left; exact C|right; split; [exact C1|left; exact C]|right; split; [exact C1|right; lia]].
    + intros (keys & P & E & F & L & C). destruct keys as [|k0 keys].
      * exfalso. cbn [map concat app] in E. subst P. rewrite zlen_cons in C. destruct C as [C|[_ C]]; [discriminate|]. lia.
      * apply Forall_cons_iff in F as [F0 F]. cbn [map concat app] in E. injection E as E. rewrite Ep, <- app_assoc in E. apply app_inj_zlen in E as [_ E]; [|lia]. exists keys, P. split; [exact E|]. split; [exact F|]. rewrite zlen_cons in *. split; [lia|]. destruct C as [C|[C1 [C|C]]]; [left; exact C|right; split; [exact C1|left; exact C]|right; split; [exact C1|right; lia]].
Qed.
Definition redeem_read (sigs : list (bytes * Z)) (redeemLen : Z) (rest : bytes) : res (list (sigpub * Z)) :=
  need1 rest (fun q rest =>
  if negb (u8 (q + 1 - 0x51) =? zlen sigs) then Err else
  if negb (zlen rest =? redeemLen - 1) then Err else
  if negb (last (q :: rest) 0 =? 0xAE) then Err else
  if zlen rest <? 2 then Panic else
  let pubkeys := nth (List.length rest - 2) rest 0 + 1 - 0x51 in
  keys <- multi_pubs (Z.to_nat pubkeys) redeemLen 0 (firstn (List.length rest - 2) rest) rest ;;
  Ok (zip_sp (Nat.max (List.length sigs) (Z.to_nat pubkeys)) sigs keys)).
Definition push_read (sigs : list (bytes * Z)) (rest : bytes) : res (list (sigpub * Z)) :=
  need1 rest (fun c rest =>
  '(redeemLen, rest) <- (if c =? 0x4C then need1 rest (fun l r => Ok (l, r))
                         else if c =? 0x4D then need 2 rest (fun l r => Ok (le_num l, r))
                         else Ok (c, rest)) ;;
  redeem_read sigs redeemLen rest).
Definition head_read (script : bytes) : res bytes :=
  need1 script (fun b r0 =>
  if b =? 0 then Ok script
  else if b =? 0xFD then need 2 r0 (fun l r => if negb (le_num l + 3 =? zlen script) then Err else Ok r)
  else if negb (b + 1 =? zlen script) then Err else Ok r0).
Definition body_read (rest : bytes) : res (list (sigpub * Z)) :=
  must1 rest (fun z rest => if negb (z =? 0) then Err else '(sigs, rest) <- multi_sigs (List.length rest) rest ;; push_read sigs rest).
Lemma decode_multi_parts script : decode_multi script = (rest <- head_read script ;; body_read rest).
Proof. destruct script; reflexivity. Qed.
Definition redeem_stuck (sigs : list (bytes * Z)) (q : Z) (body : bytes) : Prop :=
  (q - 0x50) mod 256 = zlen sigs /\ last (q :: body) 0 = 0xAE /\
    (zlen body < 2 \/ exists (keys : list bytes) p n, body = concat (map (cons 0x21) keys) ++ p ++ [n; 0xAE] /\ Forall (fun k => zlen k = 33) keys /\ keys_stuck (n - 0x50) keys p).
Lemma last_two (l : bytes) : 2 <= zlen l -> exists p n e, l = p ++ [n; e].
Proof.
  intros L. destruct (exists_last (l := l)) as (l1 & e & ->); [intros ->; change (zlen (@nil Z)) with 0 in L; lia|]. rewrite zlen_app in L. change (zlen [e]) with 1 in L. destruct (exists_last (l := l1)) as (p & n & ->); [intros ->; change (zlen (@nil Z)) with 0 in L; lia|].
  exists p, n, e. rewrite <- app_assoc. reflexivity.
Qed.
Lemma redeem_panics sigs len rest : redeem_read sigs len rest = Panic <-> exists q body, rest = q :: body /\ zlen body = len - 1 /\ redeem_stuck sigs q body.
Proof.
  unfold redeem_read. destruct rest as [|q body]; cbn [need1]; [split; [discriminate|intros (? & ? & Q & _); discriminate]|].
  assert (X : (exists q0 body0, q :: body = q0 :: body0 /\ zlen body0 = len - 1 /\ redeem_stuck sigs q0 body0) <-> zlen body = len - 1 /\ redeem_stuck sigs q body) by (split; [intros (q0 & b0 & E & R); injection E as -> ->; exact R|intros R; exists q, body; auto]). rewrite X. clear X. unfold redeem_stuck, u8. change (2 ^ 8) with 256.
  replace (q + 1 - 81) with (q - 80) by lia. destruct ((q - 80) mod 256 =? zlen sigs) eqn:E1; cbn [negb]; [|split; [discriminate|lia]]. destruct (zlen body =? len - 1) eqn:E2; cbn [negb]; [|split; [discriminate|lia]].
  destruct (last (q :: body) 0 =? 174) eqn:E3; cbn [negb]; [|split; [discriminate|lia]]. destruct (zlen body <? 2) eqn:E4; [split; [intros _|reflexivity]; lia|].
  destruct (last_two body ltac:(lia)) as (p & n & e & ->). assert (Lb : (length (p ++ [n; e]) - 2)%nat = length p) by (rewrite app_length; cbn [length]; lia). rewrite Lb, app_nth2, Nat.sub_diag, firstn_app, firstn_all, Nat.sub_diag by lia. cbn [nth firstn]. rewrite app_nil_r. cbv zeta.
  assert (e = 174) by (rewrite app_comm_cons in E3; change [n; e] with ([n] ++ [e]) in E3; rewrite app_assoc, last_last in E3; lia). subst e. replace (n + 1 - 81) with (n - 80) by lia.
  assert (Simp : forall X : res (list bytes), (keys <- X ;; Ok (zip_sp (Nat.max (length sigs) (Z.to_nat (n - 80))) sigs keys)) = Panic <-> X = Panic) by (intros [?| |]; cbn [bind]; split; intros W0; (discriminate W0 || reflexivity)). rewrite Simp. clear Simp.
  replace len with (zlen ([] ++ p ++ [n; 174]) + 1) by (cbn [app]; lia). pose proof (multi_pubs_stuck n 174 (Z.to_nat (n - 80)) [] p) as M. cbn [app] in M |- *. change (zlen (@nil Z)) with 0 in M. rewrite M. unfold pubs_stuck. split.
  - intros (keys & P & -> & F & C). split; [lia|]. split; [lia|]. split; [lia|]. right. exists keys, P, n. split; [rewrite app_assoc; reflexivity|]. split; [exact F|]. unfold keys_stuck in *. pose proof (zlen_nonneg keys). destruct C as [C1 C2]. split; [lia|]. destruct C2 as [C|[C3 [C|C]]]; [left; exact C|right; split; [exact C3|left; exact C]|right; split; [exact C3|right; lia]].
  - intros (_ & _ & _ & [W|(keys & P & n' & Eb & F & C)]); [lia|]. rewrite app_assoc in Eb. apply app_inj_tail in Eb as [Eb _] || idtac. assert (Q : p = concat (map (cons 33) keys) ++ P /\ n = n').
    { change [n; 174] with ([n] ++ [174]) in Eb. change [n'; 174] with ([n'] ++ [174]) in Eb. rewrite !app_assoc in Eb. apply app_inj_tail in Eb as [Eb _]. apply app_inj_tail in Eb as [-> ->]. auto. }
    destruct Q as [-> <-]. exists keys, P. split; [reflexivity|]. split; [exact F|]. unfold keys_stuck in *. pose proof (zlen_nonneg keys). destruct C as [C1 C2]. split; [lia|]. destruct C2 as [C|[C3 [C|C]]]; [left; exact C|right; split; [exact C3|left; exact C]|right; split; [exact C3|right; lia]].
Qed.
Definition pushed (push body : bytes) : Prop :=
  (push = [zlen body + 1] /\ zlen body + 1 <> 0x4C /\ zlen body + 1 <> 0x4D) \/ push = [0x4C; zlen body + 1] \/ exists l, push = 0x4D :: l /\ zlen l = 2 /\ le_num l = zlen body + 1.
Lemma need_app {A} n (a b : bytes) (k : bytes -> bytes -> res A) : zlen a = n -> need n (a ++ b) k = k a b.
Proof.
  intros <-. unfold need. pose proof (zlen_nonneg b). replace (zlen (a ++ b) <? zlen a) with false by (rewrite zlen_app; lia). replace (Z.to_nat (zlen a)) with (length a) by (unfold zlen; lia). rewrite firstn_app, skipn_app, firstn_all, skipn_all, Nat.sub_diag. cbn [firstn skipn app]. rewrite app_nil_r. reflexivity.
Qed.
Lemma push_panics sigs rest : push_read sigs rest = Panic <-> exists push q body, rest = push ++ q :: body /\ pushed push body /\ redeem_stuck sigs q body.
Proof.
  unfold push_read. split.
  - destruct rest as [|c rest]; cbn [need1]; [discriminate|]. destruct (c =? 76) eqn:E1.
    + destruct rest as [|l r]; cbn [need1 bind]; [discriminate|]. intros P. apply redeem_panics in P as (q & body & -> & L & R). exists [c; l], q, body. split; [reflexivity|]. split; [right; left; f_equal; [lia|]; f_equal; lia|exact R].
    + destruct (c =? 77) eqn:E2.
      * match goal with |- context [need ?n ?r ?k] => destruct (need_cases n r k ltac:(lia)) as [[_ ->]|(l & r' & -> & Ll & ->)] end; [discriminate|]. cbn [bind]. intros P. apply redeem_panics in P as (q & body & -> & L & R). exists (c :: l), q, body. split; [reflexivity|]. split; [|exact R]. right; right. exists l. split; [f_equal; lia|]. split; [exact Ll|lia].
      * cbn [bind]. intros P. apply redeem_panics in P as (q & body & -> & L & R). exists [c], q, body. split; [reflexivity|]. split; [|exact R]. left. split; [f_equal; lia|]. lia.
  - intros (push & q & body & -> & P & R). destruct P as [(-> & N1 & N2)|[->|(l & -> & Ll & E)]]; cbn [app need1].
    + replace (zlen body + 1 =? 76) with false by lia. replace (zlen body + 1 =? 77) with false by lia. cbn [bind]. apply redeem_panics. exists q, body. split; [reflexivity|]. split; [lia|exact R].
    + cbn [Z.eqb Pos.eqb bind]. apply redeem_panics. exists q, body. split; [reflexivity|]. split; [lia|exact R].
    + cbn [Z.eqb Pos.eqb]. rewrite need_app by exact Ll. cbn [bind]. apply redeem_panics. exists q, body. split; [reflexivity|]. split; [lia|exact R].
Qed.
Lemma head_cases script r : is_bytes script -> head_read script = Ok r <->
  (exists rest, script = 0 :: rest /\ r = script) \/ (exists b, script = b :: r /\ b <> 0 /\ b <> 0xFD /\ b = zlen r) \/ (exists l, script = 0xFD :: l ++ r /\ zlen l = 2 /\ le_num l = zlen r).
Proof.
  intros B. unfold head_read. destruct script as [|b s]; cbn [need1]; [split; [discriminate|intros [(? & Q & _)|[(? & Q & _)|(? & Q & _)]]; discriminate]|]. rewrite zlen_cons. destruct (b =? 0) eqn:E0.
  { assert (b = 0) by lia. subst b. split; [intros Q; left; injection Q as <-; eauto|]. intros [(? & _ & ->)|[(b & Q & N & _)|(? & Q & _)]]; [reflexivity|congruence|discriminate]. }
  destruct (b =? 253) eqn:E1.
  - assert (b = 253) by lia. subst b. split.
    + match goal with |- context [need ?n ?x ?k] => destruct (need_cases n x k ltac:(lia)) as [[_ ->]|(l & r' & -> & Ll & ->)] end; [discriminate|]. rewrite zlen_app. destruct (le_num l + 3 =? _) eqn:E; cbn [negb]; [|discriminate]. intros Q. injection Q as <-. right; right. exists l. split; [reflexivity|]. split; [exact Ll|lia].
    + intros [(? & Q & _)|[(b & Q & _ & N & _)|(l & Q & Ll & E)]]; [discriminate|congruence|]. injection Q as ->. rewrite need_app by exact Ll. rewrite zlen_app. replace (le_num l + 3 =? _) with true by lia. reflexivity.
  - destruct (b + 1 =? _) eqn:E; cbn [negb].
    + split; [intros Q; assert (s = r) by congruence; subst s; right; left; exists b; repeat split; lia|]. intros [(? & Q & _)|[(b' & Q & _ & _ & _)|(l & Q & _)]]; [injection Q as -> _; discriminate| |injection Q as -> _; discriminate]. congruence.
    + split; [discriminate|]. intros [(? & Q & _)|[(b' & Q & _ & _ & Lb)|(l & Q & _)]]; [injection Q as -> _; discriminate| |injection Q as -> _; discriminate]. injection Q as -> ->. lia.
Qed.
Lemma decode_multi_stuck script : is_bytes script -> decode_multi script = Panic <-> script_stuck script.
Proof.
  intros B. rewrite decode_multi_parts, CreatePanicProps.bindp. assert (NP : head_read script <> Panic).
  { unfold head_read. destruct script as [|b s]; cbn [need1]; [discriminate|]. destruct (b =? 0); [discriminate|]. destruct (b =? 253); [apply need_fine; intros x r; destruct (negb _); discriminate|]. destruct (negb _); discriminate. }
  unfold script_stuck. split.
  - intros [P|(r & E & P)]; [contradiction|]. assert (Br : is_bytes r).
    { apply head_cases in E as [(rest & _ & ->)|[(b & -> & _)|(l & -> & _)]]; [exact B|apply is_bytes_cons in B; apply B| |exact B]. apply is_bytes_cons in B as [_ B]. apply is_bytes_app in B. apply B. }
    unfold body_read in P. destruct r as [|z rest]; cbn [must1] in P.
    + left. apply head_cases in E as [(rest & Q & <-)|[(b & -> & N & _ & L)|(l & -> & Ll & L)]]; [discriminate|contradiction| |exact B]. rewrite app_nil_r in *. destruct l as [|x [|y [|? ?]]]; rewrite ?zlen_cons in Ll; try (change (zlen (@nil Z)) with 0 in Ll; lia); [|pose proof (zlen_nonneg l); lia].
      apply is_bytes_cons in B as [_ B]. apply is_bytes_cons in B as [Bx B]. apply is_bytes_cons in B as [By _]. unfold is_byte in *. cbn [le_num] in L. change (zlen (@nil Z)) with 0 in L. assert (x = 0 /\ y = 0) as [-> ->] by lia. reflexivity.
    + right. destruct (z =? 0) eqn:Ez; cbn [negb] in P; [|discriminate]. assert (z = 0) by lia. subst z. apply is_bytes_cons in Br as [_ Br]. apply CreatePanicProps.bindp in P as [P|([sigs rest'] & M & P)]; [exfalso; exact (multi_sigs_np _ _ Br P)|]. apply push_panics in P as (push & q & body & -> & Pu & R).
      assert (Hd : exists pre, script = pre ++ 0 :: rest /\ (pre = [] \/ (pre = [zlen rest + 1] /\ zlen rest + 1 <> 0xFD) \/ exists l, pre = 0xFD :: l /\ zlen l = 2 /\ le_num l = zlen rest + 1)).
      { apply head_cases in E as [(rest0 & -> & Q)|[(b & -> & N & N2 & L)|(l & -> & Ll & L)]]; [exists []; split; [symmetry; exact Q|auto]| | |exact B]; rewrite zlen_cons in L; [exists [b]; split; [reflexivity|]; right; left; split; [f_equal; lia|lia]|exists (253 :: l); split; [reflexivity|]; right; right; exists l; split; [reflexivity|]; split; [exact Ll|lia]]. }
      destruct Hd as (pre & -> & Hd). exists pre, rest, sigs, push, q, body. split; [reflexivity|]. split; [exact Hd|]. split; [exact M|]. split; [exact Pu|exact R].
  - intros [->|(pre & rest & sigs & push & q & body & -> & Hd & M & Pu & R)].
    + right. exists []. split; reflexivity.
    + right. exists (0 :: rest). split.
      * apply head_cases; [exact B|]. pose proof (zlen_nonneg rest). destruct Hd as [->|[[-> N]|(l & -> & Ll & L)]]; [left; exists rest; auto|right; left; exists (zlen rest + 1); rewrite zlen_cons; repeat split; try lia|right; right; exists l; rewrite zlen_cons; split; [reflexivity|]; split; [exact Ll|lia]].
      * unfold body_read. cbn [must1]. change (negb (0 =? 0)) with false. cbv iota. rewrite M. cbn [bind]. apply push_panics. exists push, q, body. split; [reflexivity|]. split; [exact Pu|exact R].
Qed.

(** ** Filling the entries *)
Lemma set_multi_cases sps : forall l, (zlen sps <= zlen l -> exists l', set_multi l sps = Ok l' /\ map m_sp l' = map fst sps ++ skipn (length sps) (map m_sp l) /\ zlen l' = zlen l) /\ (zlen l < zlen sps -> set_multi l sps = Panic).
Proof.
  induction sps as [|[sp t] sps IH]; intros l.
  - split; [intros _; exists l; destruct l; repeat split; reflexivity|]. change (zlen (@nil (sigpub * Z))) with 0. pose proof (zlen_nonneg l). lia.
  - destruct l as [|m l]; cbn [set_multi]; rewrite !zlen_cons; [split; [change (zlen (@nil multi_tx)) with 0; pose proof (zlen_nonneg sps); lia|reflexivity]|]. destruct (IH l) as [A B]. split; intros L.
    + destruct A as (l' & -> & E & Ll); [lia|]. cbn [bind]. eexists. split; [reflexivity|]. cbn [map m_sp fst app length skipn]. split; [f_equal; exact E|rewrite !zlen_cons; lia].
    + rewrite B by lia. reflexivity.
Qed.
Lemma blank_skip (ms : list multi_tx) n : Forall (fun m => m_sp m = no_sigpub) ms -> skipn n (map m_sp ms) = repeat no_sigpub (length ms - n).
Proof.
  intros F. assert (E : map m_sp ms = repeat no_sigpub (length ms)) by (induction F as [|m ms Q F IH]; [reflexivity|cbn [map length repeat]; congruence]). rewrite E. generalize (length ms). clear. induction n as [|n IH]; intros k; [rewrite Nat.sub_0_r; reflexivity|]. destruct k as [|k]; [reflexivity|]. cbn [repeat skipn Nat.sub]. apply IH.
Qed.
Lemma in_single_types ty : In ty single_types <-> (ty =? TypeP2PKH) || (ty =? TypeP2WPKH) || (ty =? TypeBech32) = true.
Proof. unfold single_types. cbn [In]. unfold TypeP2PKH, TypeP2WPKH, TypeBech32. lia. Qed.
Lemma filled_same th l : filled_as th th l -> forall l', filled_as th th l' -> l' = l.
Proof. intros (_ & _ & A) l' (_ & _ & B). destruct A as [(R & n & E & ->)|(R & <-)], B as [(R' & n' & E' & ->)|(R' & <-)]; try lia; [congruence|reflexivity]. Qed.
Lemma filled_fun th th' l l' : filled_as th th' l -> filled_as th th' l' -> l' = l.
Proof. intros (_ & _ & A) (_ & _ & B). destruct A as [(R & n & E & ->)|(R & <-)], B as [(R' & n' & E' & ->)|(R' & <-)]; try lia; [congruence|reflexivity]. Qed.
Lemma entry_blank th : entry th -> filled_as th th (repeat no_sigpub (places th)).
Proof.
  intros [(R & (n & Nn & Sn) & M)|(R & Nn & F)]; split; [reflexivity| |reflexivity|]; (split; [reflexivity|]).
  - left. split; [exact R|]. exists n. split; [exact Nn|]. unfold places. rewrite M, Sn. reflexivity.
  - right. split; [exact R|]. pose proof (blank_skip (th_multi th) 0 F) as E. cbn [skipn] in E. rewrite E. f_equal. unfold places, zlen in *. lia.
Qed.
Lemma fill_spec i th : entry th -> is_bytes (in_sig i) -> is_bytes (in_multi i) ->
  (forall l, shows i th l -> exists th', fill_one i th = Ok th' /\ filled_as th th' l) /\ (forall th', fill_one i th = Ok th' -> exists l, shows i th l) /\ (fill_one i th = Panic <-> mismatch i th).
Proof.
  intros En Bs Bm. unfold fill_one, mismatch. pose proof (in_single_types (in_type i)) as ST. destruct ((in_type i =? TypeP2PKH) || _ || _) eqn:Es.
  - assert (S1 : In (in_type i) single_types) by (apply ST; reflexivity). assert (NM : in_type i <> TypeMultiSig) by (unfold TypeP2PKH, TypeP2WPKH, TypeBech32, TypeMultiSig in *; lia). destruct (input_script_accepts_exactly (in_sig i) Bs) as [NP _].
    destruct (decode_script (in_sig i)) as [[[sig pub] t]| |] eqn:D; cbn [bind]; [| |contradiction].
    + destruct En as [(R & (n & Nn & Sn) & M)|(R & Nn & F)]; rewrite Nn.
      * split; [|split].
        -- intros l Sh. inversion Sh as [N _|sig' pub' t' _ _ D'|sps N _ _]; subst; try contradiction. rewrite D in D'. injection D' as <- <- <-. eexists. split; [reflexivity|]. split; [reflexivity|]. split; [reflexivity|]. left. split; [exact R|]. eexists. split; reflexivity.
        -- intros _ _. eexists. eapply shows_one; [exact S1|unfold is_shared; rewrite M; auto|exact D].
        -- split; [discriminate|]. intros [(_ & Q & _)|(Q & _)]; [unfold is_shared in Q; rewrite M in Q; contradiction|contradiction].
      * assert (Sd : is_shared th) by (intros Q; rewrite Q in R; change (zlen (@nil multi_tx)) with 0 in R; lia). split; [|split].
        -- intros l Sh. inversion Sh; subst; contradiction.
        -- discriminate.
        -- split; [intros _; left; split; [exact S1|]; split; [exact Sd|eauto]|reflexivity].
    + split; [|split].
      * intros l Sh. inversion Sh as [N _|sig' pub' t' _ _ D'|sps N _ _]; subst; try contradiction. congruence.
      * discriminate.
      * split; [discriminate|]. intros [(_ & _ & ? & Q)|(Q & _)]; [discriminate|contradiction].
  - assert (S1 : ~ In (in_type i) single_types) by (rewrite ST; discriminate). destruct (in_type i =? TypeMultiSig) eqn:Em.
    + assert (Ty : in_type i = TypeMultiSig) by lia. pose proof (decode_multi_stuck (in_multi i) Bm) as DS. destruct (decode_multi (in_multi i)) as [sps| |] eqn:D; cbn [bind].
      * destruct (set_multi_cases sps (th_multi th)) as [A B]. destruct (Z_le_gt_dec (zlen sps) (zlen (th_multi th))) as [L|L].
        -- destruct (A L) as (l' & E & El & Ll). rewrite E. cbn [bind]. assert (Fl : filled_as th {| th_hash := th_hash th; th_required := th_required th; th_normal := th_normal th; th_multi := l' |} (map fst sps ++ repeat no_sigpub (places th - length sps))).
           { split; [reflexivity|]. split; [reflexivity|]. cbn [th_normal th_multi]. destruct En as [(R & (n & Nn & Sn) & M)|(R & Nn & F)].
             - left. split; [exact R|]. exists n. split; [exact Nn|]. rewrite M in L. change (zlen (@nil multi_tx)) with 0 in L. destruct sps as [|s0 sps]; [|rewrite zlen_cons in L; pose proof (zlen_nonneg sps); lia]. unfold places. rewrite M, Sn. reflexivity.
             - right. split; [lia|]. rewrite El, blank_skip by exact F. do 2 f_equal. unfold places, zlen in *. lia. }
           split; [|split].
           ++ intros l Sh. inversion Sh as [_ N|sig' pub' t' N _ _|sps' _ D' L']; subst; try contradiction. rewrite D in D'. injection D' as <-. eexists. split; [reflexivity|exact Fl].
           ++ intros _ _. eexists. apply shows_many; eassumption.
           ++ split; [discriminate|]. intros [(Q & _)|(_ & [Q|(s' & Q & L')])]; [contradiction|apply DS in Q; discriminate|]. injection Q as <-. lia.
        -- rewrite B by lia. cbn [bind]. split; [|split].
           ++ intros l Sh. inversion Sh as [_ N|sig' pub' t' N _ _|sps' _ D' L']; subst; try contradiction. rewrite D in D'. injection D' as <-. lia.
           ++ discriminate.
           ++ split; [intros _; right; split; [exact Ty|]; right; exists sps; split; [reflexivity|lia]|reflexivity].
      * split; [|split].
        -- intros l Sh. inversion Sh as [_ N|sig' pub' t' N _ _|sps' _ D' L']; subst; try contradiction. congruence.
        -- discriminate.
        -- split; [discriminate|]. intros [(Q & _)|(_ & [Q|(s' & Q & L')])]; [contradiction|apply DS in Q; discriminate|discriminate].
      * split; [|split].
        -- intros l Sh. inversion Sh as [_ N|sig' pub' t' N _ _|sps' _ D' L']; subst; try contradiction. congruence.
        -- discriminate.
        -- split; [intros _; right; split; [exact Ty|]; left; apply DS; reflexivity|reflexivity].
    + assert (Ty : in_type i <> TypeMultiSig) by lia. split; [|split].
      * intros l Sh. inversion Sh; subst; try contradiction. exists th. split; [reflexivity|]. apply entry_blank. exact En.
      * intros _ _. eexists. apply shows_none; assumption.
      * split; [discriminate|]. intros [(Q & _)|(Q & _)]; contradiction.
Qed.
Lemma fill_all_mapr ins : forall ths, length ins = length ths -> fill_all ins ths = mapr (fun p => fill_one (fst p) (snd p)) (combine ins ths).
Proof.
  induction ins as [|i ins IH]; intros [|th ths] L; try discriminate L; [reflexivity|]. cbn [fill_all combine mapr fst snd]. injection L as L. rewrite IH by exact L. reflexivity.
Qed.
Lemma mapr_each {A B} (f : A -> res B) l : forall r, mapr f l = Ok r <-> Forall2 (fun x y => f x = Ok y) l r.
Proof.
  induction l as [|x l IH]; intros r; cbn [mapr].
  - split; [intros Q; injection Q as <-; constructor|intros F; inversion F; reflexivity].
  - split.
    + intros E. apply bind_ok in E as (y & Ey & E). apply bind_ok in E as (ys & Eys & E). injection E as <-. constructor; [exact Ey|apply IH; exact Eys].
    + intros F. inversion F as [|? y ? ys Ey Eys]; subst. rewrite Ey. cbn [bind]. apply IH in Eys. rewrite Eys. reflexivity.
Qed.
Lemma filled_shows (ps : list (txin * txhash)) ths' : Forall (fun p => entry (snd p) /\ is_bytes (in_sig (fst p)) /\ is_bytes (in_multi (fst p))) ps ->
  forall ls, Forall2 (fun p th' => fill_one (fst p) (snd p) = Ok th') ps ths' -> Forall2 (fun p l => shows (fst p) (snd p) l) ps ls -> Forall2 (fun e th' => filled_as (fst e) th' (snd e)) (combine (map snd ps) ls) ths'.
Proof.
  intros G ls F. revert ls. induction F as [|p th' ps ths' E F IH]; intros ls S; inversion S as [|? l ? ls' Sh S']; subst; cbn [map combine]; constructor.
  - apply Forall_cons_iff in G as [(En & B1 & B2) _]. destruct (fill_spec (fst p) (snd p) En B1 B2) as [A _]. destruct (A l Sh) as (th2 & E2 & Fl). cbn [fst snd]. congruence.
  - apply IH; [apply Forall_cons_iff in G; apply G|exact S'].
Qed.
Lemma fill_check decompress ecdsa ins ths : length ins = length ths -> Forall entry ths -> Forall (fun i => is_bytes (in_sig i) /\ is_bytes (in_multi i)) ins ->
  match fill_all ins ths with Panic => Panic | Err => Ok false | Ok l => check_all decompress ecdsa l end = Panic <-> check_crash decompress ecdsa ins ths.
Proof.
  intros L En B. rewrite fill_all_mapr by exact L. set (ps := combine ins ths).
  assert (G : Forall (fun p => entry (snd p) /\ is_bytes (in_sig (fst p)) /\ is_bytes (in_multi (fst p))) ps).
  { apply Forall_forall. intros [i th] I. rewrite Forall_forall in En, B. cbn [fst snd]. split; [apply En; eapply in_combine_r; exact I|apply B; eapply in_combine_l; exact I]. }
  assert (Esnd : map snd ps = ths). { unfold ps. clear - L. revert ths L. induction ins as [|i ins IH]; intros [|th ths] L; try discriminate L; [reflexivity|]. cbn [combine map snd]. f_equal. apply IH. injection L as L. exact L. }
  assert (P : mapr (fun p => fill_one (fst p) (snd p)) ps = Panic <-> meets (fun p => exists l, shows (fst p) (snd p) l) (fun p => mismatch (fst p) (snd p)) ps).
  { apply CreatePanicProps.meets_mapr. intros p I. rewrite Forall_forall in G. destruct (G p I) as (E1 & B1 & B2). destruct (fill_spec (fst p) (snd p) E1 B1 B2) as (A1 & A2 & A3). split; [|exact A3]. split; [intros (y & E); exact (A2 _ E)|]. intros (l & Sh). destruct (A1 l Sh) as (th' & E & _). eauto. }
  unfold check_crash. fold ps. rewrite <- P. clear P. destruct (mapr _ ps) as [ths'| |] eqn:E.
  - apply mapr_each in E. assert (S : exists ls, Forall2 (fun p l => shows (fst p) (snd p) l) ps ls).
    { clear Esnd. revert G. induction E as [|p th' l l' Q E IH]; intros G; [exists []; constructor|]. apply Forall_cons_iff in G as [(E1 & B1 & B2) G]. destruct (IH G) as (ls & F). destruct (fill_spec (fst p) (snd p) E1 B1 B2) as (_ & A2 & _). destruct (A2 _ Q) as (x & Sh). exists (x :: ls). constructor; assumption. }
    rewrite check_all_panics. assert (X : forall ls, Forall2 (fun p l => shows (fst p) (snd p) l) ps ls -> meets (fun e => entry_valid decompress ecdsa (fst e) (snd e)) (fun e => entry_crash decompress ecdsa (fst e) (snd e)) (combine ths ls) <-> meets (fun t => check_hash decompress ecdsa t = Ok true) (fun t => check_hash decompress ecdsa t = Panic) ths').
    { intros ls F. pose proof (filled_shows ps ths' G ls E F) as W. rewrite Esnd in W. eapply meets_map2; [|exact W]. intros e th' Fl. cbn beta in Fl. destruct (check_entry decompress ecdsa _ _ _ Fl) as [C1 C2]. split; symmetry; assumption. }
    split.
    + intros M. right. destruct S as (ls & F). exists ls. split; [exact F|]. apply X; assumption.
    + intros [Q|(ls & F & M)]; [discriminate|]. apply (X ls F). exact M.
  - split; [discriminate|]. intros [Q|(ls & F & _)]; [discriminate|]. exfalso. assert (Q : exists r, mapr (fun p => fill_one (fst p) (snd p)) ps = Ok r); [|destruct Q; congruence].
    clear E Esnd. revert G. induction F as [|p l ps0 ls Sh F IH]; intros G; [exists []; reflexivity|]. apply Forall_cons_iff in G as [(E1 & B1 & B2) G]. destruct (IH G) as (r & Er). destruct (fill_spec (fst p) (snd p) E1 B1 B2) as (A1 & _). destruct (A1 _ Sh) as (th' & Et & _). cbn [mapr]. rewrite Et, Er. cbn [bind]. eauto.
  - split; auto.
Qed.

(** ** Entries of a transaction *)
Lemma details_bounds redeem n ks : multi_details redeem = Ok (n, ks) -> 1 <= n <= zlen ks.
Proof.
  unfold multi_details. destruct redeem as [|b rest]; cbn [need1]; [discriminate|]. cbv zeta. destruct (_ || _) eqn:E1; [discriminate|]. intros E. apply bind_ok in E as ([ks' rest'] & _ & E). destruct rest' as [|c rest']; cbn [need1] in E; [discriminate|]. destruct (negb _ || _) eqn:E2; [discriminate|]. injection E as <- <-.
  assert (M : u8 (zlen ks') <= zlen ks') by (unfold u8; apply Z.mod_le; [apply zlen_nonneg|lia]). lia.
Qed.
Lemma new_entry K H h lock redeem ty st ap th : new_txhash_v K H h lock redeem ty st ap = Ok th -> entry th.
Proof.
  unfold new_txhash_v. cbv zeta. destruct (ty =? TypeP2PKH); [|destruct (ty =? TypeP2WPKH); [|destruct (ty =? TypeBech32); [destruct (k_bech32 K); [|discriminate]|]]]; intros E.
  1-3: apply bind_ok in E as (? & _ & E); apply bind_ok in E as (? & _ & E); injection E as <-; left; split; [reflexivity|]; split; [eexists; split; reflexivity|reflexivity].
  apply bind_ok in E as ([n ks] & E & Q). injection Q as <-. apply details_bounds in E. right. cbn [th_required th_multi th_normal]. split; [unfold zlen in *; rewrite map_length; exact E|]. split; [reflexivity|]. apply Forall_forall. intros m I. apply in_map_iff in I as (k & <- & _). reflexivity.
Qed.
Lemma hashes_entries K H sw ap us : forall t i ths, hashes_loop_v K H t sw ap i us = Ok ths -> Forall entry ths /\ length ths = length us.
Proof.
  induction us as [|u us IH]; intros t i ths E; cbn [hashes_loop_v] in E; [injection E as <-; split; [constructor|reflexivity]|]. cbv zeta in E.
  apply bind_ok in E as ([[l r] ty] & C & E). apply bind_ok in E as (b & _ & E). apply bind_ok in E as (th & Et & E). apply bind_ok in E as (rest & Er & E). injection E as <-. destruct (IH _ _ _ Er) as [F L]. split; [|cbn [length]; congruence]. constructor; [|exact F]. eapply new_entry. exact Et.
Qed.
Lemma pushes_bytes m f ty pub sig multi : taken_script m f (ty, pub, sig, multi) -> is_bytes f -> is_bytes multi.
Proof. intros T B. inversion T; subst; try constructor. - apply is_bytes_cons in B as [_ B]. exact B. - apply is_bytes_cons in B. apply B. - apply is_bytes_cons in B. apply B. Qed.
Lemma multi_ins_bytes m ib ins : Forall2 (taken_in m) ib ins -> is_bytes (concat ib) -> Forall (fun i => is_bytes (in_multi i)) ins.
Proof.
  induction 1 as [|w i ib ins T F IH]; intros B; [constructor|]. cbn [concat] in B. apply is_bytes_app in B as [Bw B]. constructor; [|auto]. inversion T; subst. cbn [in_multi].
  apply is_bytes_app in Bw as [_ Bw]. apply is_bytes_app in Bw as [_ Bw]. apply is_bytes_app in Bw as [Bw _]. eapply pushes_bytes; eassumption.
Qed.
Lemma multi_wits_bytes sw ins wb ins' : taken_wits sw ins wb ins' -> is_bytes (concat wb) -> Forall (fun i => is_bytes (in_multi i)) ins -> Forall (fun i => is_bytes (in_multi i)) ins'.
Proof.
  induction 1 as [|i w i' l ws l' T W IH]; intros B F; [constructor|]. cbn [concat] in B. apply is_bytes_app in B as [Bw B]. apply Forall_cons_iff in F as [Fi F]. constructor; [|auto].
  inversion T; subst; cbn [with_sig with_multi in_multi]; try assumption. apply is_bytes_cons in Bw as [_ Bw]. exact Bw.
Qed.
Lemma decoded_multi_bytes v b sw t : is_bytes b -> 0 <= v < 2 ^ 32 -> decode_v v b sw = Ok t -> Forall (fun i => is_bytes (in_multi i)) (tx_vins t).
Proof.
  intros B V E. apply btc_decode_iff in E as (m & ib & ins & ob & outs & wb & ins' & lt & N1 & N2 & Fi & _ & W & _ & Eb & ->); [|assumption..]. cbn [tx_vins]. subst b.
  apply is_bytes_app in B as [_ B]. apply is_bytes_app in B as [_ B]. apply is_bytes_cons in B as [_ B]. apply is_bytes_app in B as [Bi B]. apply is_bytes_cons in B as [_ B]. apply is_bytes_app in B as [_ B]. apply is_bytes_app in B as [Bw _].
  pose proof (multi_ins_bytes _ _ _ Fi Bi) as Fs. destruct m; [eapply multi_wits_bytes; eassumption|]. destruct W as [_ ->]. exact Fs.
Qed.
Lemma verify_any K H decompress ecdsa txHex us sw ap : 0 <= k_version K < 2 ^ 32 -> hash_ok H -> prefixes_ok ap -> addresses K H ap -> Forall (slices K) us ->
  verify_raw_v K H decompress ecdsa txHex us sw ap = Panic <->
  decoder_crash (k_version K) txHex sw \/
  exists b t ths, hex_decode txHex = Ok b /\ decode_v (k_version K) b sw = Ok t /\ zlen (tx_vins t) = zlen us /\ hashes_for_sig_v K H (clone_empty t) us sw ap = Ok ths /\ check_crash decompress ecdsa (tx_vins t) ths.
Proof.
  intros V HH HP A F. unfold verify_raw_v, decoder_crash. pose proof (hex_decode_not_panic txHex) as HN. destruct (hex_decode txHex) as [b| |] eqn:E; cbn [bind]; [| |contradiction].
  2:{ split; [discriminate|]. intros [(? & Q & _)|(? & ? & ? & Q & _)]; discriminate. }
  destruct (decode_v (k_version K) b sw) as [t| |] eqn:D; cbn [bind].
  - assert (X : ((exists b0, Ok b = Ok b0 /\ decode_v (k_version K) b0 sw = Panic) \/ exists b0 t0 ths, Ok b = Ok b0 /\ decode_v (k_version K) b0 sw = Ok t0 /\ zlen (tx_vins t0) = zlen us /\ hashes_for_sig_v K H (clone_empty t0) us sw ap = Ok ths /\ check_crash decompress ecdsa (tx_vins t0) ths) <->
      (zlen (tx_vins t) = zlen us /\ exists ths, hashes_for_sig_v K H (clone_empty t) us sw ap = Ok ths /\ check_crash decompress ecdsa (tx_vins t) ths)).
    { split; [|intros (Q & ths & Q2); right; exists b, t, ths; auto]. intros [(b0 & Q & Q2)|(b0 & t0 & ths & Q & Q2 & Q3 & Q4)]; assert (b0 = b) by congruence; subst b0; [congruence|]. assert (t0 = t) by congruence. subst t0. eauto. }
    rewrite X. clear X. destruct (zlen (tx_vins t) =? zlen us) eqn:Lz; cbn [negb]; [|split; [discriminate|lia]]. assert (Lv : zlen (tx_vins t) = zlen us) by lia. pose proof (clone_hashing K H t us sw ap HH HP A F) as NP.
    destruct (hashes_for_sig_v K H (clone_empty t) us sw ap) as [ths| |] eqn:Hh; cbn [bind]; [| |contradiction].
    + assert (S : Forall entry ths /\ length ths = length us). { unfold hashes_for_sig_v in Hh. destruct (_ || _) in Hh; [discriminate|]. destruct (_ =? _) in Hh; [discriminate|]. eapply hashes_entries; eassumption. } destruct S as [S Ls].
      rewrite fill_check; [| |exact S|].
      * split; [intros C; split; [exact Lv|]; exists ths; auto|]. intros (_ & ths0 & Q & C). assert (ths0 = ths) by congruence. subst ths0. exact C.
      * unfold zlen in Lv. lia.
      * pose proof (decoded_sig_bytes _ _ _ _ (hex_of _ _ E) V D) as B1. pose proof (decoded_multi_bytes _ _ _ _ (hex_of _ _ E) V D) as B2. rewrite Forall_forall in *. intros i I. split; auto.
    + split; [discriminate|]. intros (_ & ? & Q & _). discriminate.
  - split; [discriminate|]. intros [(b0 & Q & Q2)|(b0 & t0 & ths & Q & Q2 & _)]; congruence.
  - split; [intros _; left; eauto|reflexivity].
Qed.

(** ** C155 *)
(** btcTransaction and its twins, for every request. *)
Theorem btc_any_check_crashes_exactly : forall H decompress ecdsa txHex us segwitOn ap, hash_ok H -> prefixes_ok ap ->
  verify_raw H decompress ecdsa txHex us segwitOn ap = Panic <->
  decoder_crash 2 txHex segwitOn \/
  exists b t ths, hex_decode txHex = Ok b /\ decode_tx b segwitOn = Ok t /\ zlen (tx_vins t) = zlen us /\ hashes_for_sig H (clone_empty t) us segwitOn ap = Ok ths /\ check_crash decompress ecdsa (tx_vins t) ths.
Proof.
  intros H decompress ecdsa txHex us sw ap HH HP. rewrite btc_coin_checks. assert (Q : forall t, hashes_for_sig H t us sw ap = hashes_for_sig_v btc_coin H t us sw ap) by (intros t; unfold hashes_for_sig, hashes_for_sig_v; rewrite btc_coin_loop; reflexivity).
  rewrite (verify_any btc_coin H decompress ecdsa txHex us sw ap); try assumption; [|cbn; lia|apply base58_addresses; auto|apply Forall_forall; intros u _; apply btc_slices].
  change (k_version btc_coin) with 2. split; (intros [X|X]; [left; exact X|right]); destruct X as (b & t & ths & E & D & L & Hh & B); exists b, t, ths; [rewrite Q|rewrite <- Q]; auto.
Qed.
(** The forks; bitcoincashTransaction and bitcoinsvTransaction without witness scripts to be unlocked, zencashTransaction with locking scripts of 23 bytes. *)
Theorem fam_any_check_crashes_exactly : forall H decompress ecdsa txHex us segwitOn ap K, hash_ok H -> prefixes_ok ap ->
  K = cxc \/ (In K [bch; bsv] /\ Forall (fun u => ~ native_witness u) us) \/ (K = zen /\ Forall (fun u => 23 <= zlen (LiteModel.hex_prefix (u_lock u))) us) ->
  verify_raw_v K H decompress ecdsa txHex us segwitOn ap = Panic <->
  decoder_crash 1 txHex segwitOn \/
  exists b t ths, hex_decode txHex = Ok b /\ decode_v 1 b segwitOn = Ok t /\ zlen (tx_vins t) = zlen us /\ hashes_for_sig_v K H (clone_empty t) us segwitOn ap = Ok ths /\ check_crash decompress ecdsa (tx_vins t) ths.
Proof.
  intros H decompress ecdsa txHex us sw ap K HH HP C.
  assert (X : k_version K = 1 /\ addresses K H ap /\ Forall (slices K) us).
  { destruct C as [->|[(Hin & F)|(-> & F)]].
    - split; [reflexivity|]. split; [apply base58_addresses; auto|]. apply Forall_forall. intros u _. apply cxc_slices.
    - destruct Hin as [<-|[<-|[]]]; (split; [reflexivity|]; split; [first [apply cash_addresses; assumption | apply base58_addresses; auto]|]; eapply Forall_impl; [|exact F]; intros u; apply fork_slices; reflexivity).
    - split; [reflexivity|]. split; [apply base58_addresses; auto|]. eapply Forall_impl; [|exact F]. intros u. apply zen_slices. }
  destruct X as (V & A & F). rewrite <- V. apply verify_any; try assumption. rewrite V. lia.
Qed.
(** When every key decompresses to a point, only a transaction that cannot be decoded or an input that does not fit its script crashes the check. *)
Theorem sound_keys_crash_only_on_mismatch : forall H decompress ecdsa txHex us segwitOn ap, hash_ok H -> prefixes_ok ap -> (forall k, decompress k <> []) ->
  verify_raw H decompress ecdsa txHex us segwitOn ap = Panic <->
  decoder_crash 2 txHex segwitOn \/
  exists b t ths, hex_decode txHex = Ok b /\ decode_tx b segwitOn = Ok t /\ zlen (tx_vins t) = zlen us /\ hashes_for_sig H (clone_empty t) us segwitOn ap = Ok ths /\
    meets (fun p => exists l, shows (fst p) (snd p) l) (fun p => mismatch (fst p) (snd p)) (combine (tx_vins t) ths).
Proof.
  intros H decompress ecdsa txHex us sw ap HH HP Dn. rewrite btc_any_check_crashes_exactly by assumption. split; (intros [X|(b & t & ths & E & D & L & Hh & C)]; [left; exact X|right; exists b, t, ths; repeat (split; [assumption|])]); [|left; exact C].
  destruct C as [C|(ls & _ & C)]; [exact C|]. exfalso. destruct C as (before & [th l] & after & _ & _ & C). unfold entry_crash in C. cbn [fst snd] in C. destruct (th_required th =? 0).
  - apply Exists_exists in C as (sp & _ & N). apply N. unfold point. apply Dn.
  - assert (W : forall msg keys sigs c o, walk decompress ecdsa msg keys sigs c o -> o <> None).
    { intros msg keys sigs c o W. induction W as [|s r c f o T W IH|s r c T]; [discriminate|exact IH|]. destruct T as (a & x & z & _ & _ & N). exfalso. apply N. unfold point. apply Dn. }
    exact (W _ _ _ _ _ C eq_refl).
Qed.
(** A first input that shows one signature, for a script with shared keys. *)
Theorem single_for_shared_crashes : forall H decompress ecdsa txHex us segwitOn ap b t i ins th ths r, hash_ok H -> prefixes_ok ap ->
  hex_decode txHex = Ok b -> decode_tx b segwitOn = Ok t -> zlen (tx_vins t) = zlen us -> hashes_for_sig H (clone_empty t) us segwitOn ap = Ok (th :: ths) -> tx_vins t = i :: ins ->
  th_multi th <> [] -> In (in_type i) single_types -> decode_script (in_sig i) = Ok r ->
  verify_raw H decompress ecdsa txHex us segwitOn ap = Panic.
Proof.
  intros H decompress ecdsa txHex us sw ap b t i ins th ths r HH HP E D L Hh Ei M Ty Ds. apply btc_any_check_crashes_exactly; try assumption. right. exists b, t, (th :: ths). repeat (split; [assumption|]). left. rewrite Ei. exists [], (i, th), (combine ins ths).
  split; [reflexivity|]. split; [constructor|]. left. split; [exact Ty|]. split; [exact M|]. exists r. exact Ds.
Qed.
(** A first input that shows the keys of a shared script, for a script with one key. *)
Theorem shared_for_single_crashes : forall H decompress ecdsa txHex us segwitOn ap b t i ins th ths sp sps, hash_ok H -> prefixes_ok ap ->
  hex_decode txHex = Ok b -> decode_tx b segwitOn = Ok t -> zlen (tx_vins t) = zlen us -> hashes_for_sig H (clone_empty t) us segwitOn ap = Ok (th :: ths) -> tx_vins t = i :: ins ->
  th_multi th = [] -> in_type i = TypeMultiSig -> decode_multi (in_multi i) = Ok (sp :: sps) ->
  verify_raw H decompress ecdsa txHex us segwitOn ap = Panic.
Proof.
  intros H decompress ecdsa txHex us sw ap b t i ins th ths sp sps HH HP E D L Hh Ei M Ty Ds. apply btc_any_check_crashes_exactly; try assumption. right. exists b, t, (th :: ths). repeat (split; [assumption|]). left. rewrite Ei. exists [], (i, th), (combine ins ths).
  split; [reflexivity|]. split; [constructor|]. right. split; [exact Ty|]. right. exists (sp :: sps). split; [exact Ds|]. cbn [snd]. rewrite M, zlen_cons. change (zlen (@nil multi_tx)) with 0. pose proof (zlen_nonneg sps). lia.
Qed.
(** A transaction nobody has signed, whatever scripts are to be unlocked. *)
Theorem unsigned_any_check_crashes : forall H decompress ecdsa txHex us segwitOn ap b t ths, hash_ok H -> prefixes_ok ap ->
  hex_decode txHex = Ok b -> decode_tx b segwitOn = Ok t -> Forall (fun i => in_type i = TypeEmpty) (tx_vins t) -> zlen (tx_vins t) = zlen us ->
  hashes_for_sig H (clone_empty t) us segwitOn ap = Ok ths -> decompress [] = [] ->
  verify_raw H decompress ecdsa txHex us segwitOn ap = Panic.
Proof.
  intros H decompress ecdsa txHex us sw ap b t ths HH HP E D T L Hh Dn. apply btc_any_check_crashes_exactly; try assumption. right. exists b, t, ths. repeat (split; [assumption|]). right.
  assert (S : Forall entry ths /\ length ths = length us /\ tx_vins t <> []).
  { unfold hashes_for_sig in Hh. destruct (zlen (tx_vins (clone_empty t)) =? 0) eqn:Z1; [discriminate|]. cbn [orb] in Hh. destruct (negb _) in Hh; [discriminate|]. destruct (_ =? _) in Hh; [discriminate|]. rewrite <- btc_coin_loop in Hh. apply hashes_entries in Hh as [Q1 Q2].
    split; [exact Q1|]. split; [exact Q2|]. intros Q. cbn [clone_empty tx_vins] in Z1. rewrite Q in Z1. discriminate Z1. }
  destruct S as (S & Ls & Ne). exists (map (fun p => repeat no_sigpub (places (snd p))) (combine (tx_vins t) ths)). split.
  - assert (G : forall p, In p (combine (tx_vins t) ths) -> in_type (fst p) = TypeEmpty) by (intros [i th] I; rewrite Forall_forall in T; apply T; eapply in_combine_l; exact I). induction (combine (tx_vins t) ths) as [|p ps IH]; [constructor|]. cbn [map]. constructor; [|apply IH; intros q I; apply G; right; exact I].
    apply shows_none; rewrite (G p (or_introl eq_refl)); [intros [Q|[Q|[Q|[]]]]; discriminate|discriminate].
  - destruct (tx_vins t) as [|i ins]; [contradiction|]. destruct ths as [|th ths]; [unfold zlen in L; cbn [length] in *; lia|]. cbn [combine map snd]. eexists [], _, _. split; [reflexivity|]. split; [constructor|]. unfold entry_crash. cbn [fst snd]. apply Forall_cons_iff in S as [[(R & _ & M)|(R & _ & _)] _].
    + rewrite R. change (0 =? 0) with true. cbv iota. unfold places. rewrite M. cbn [length Nat.max repeat]. constructor. unfold point. auto.
    + replace (th_required th =? 0) with false by lia. assert (Q : exists k, places th = S k) by (unfold places; exists (Nat.max 1 (length (th_multi th)) - 1)%nat; lia). destruct Q as (k & Q). unfold sigs_of. rewrite Q. destruct (Z.to_nat (th_required th)) eqn:Rn; [lia|]. cbn [repeat map firstn]. apply walk_crash. cbn [skipn].
      eexists [], _, _. split; [reflexivity|]. split; [constructor|]. unfold point. auto.
Qed.

(** ** Examples *)
(** Two of three keys, the third key's signature twice: good points; the third key is no point; nobody has signed; a single signature for the shared script; the shared signatures for a single-key script. *)
Definition ex_shex : list Z := match create_empty toy_hash [BtcTxProps.ex_vin 1] BtcTxProps.ex_vouts 7 false btc_main with Ok h => h | _ => [] end.
Definition ex_shared : list unlock := BtcMultiProps.ex_mus.
Definition ex_alone : list unlock := [ex_unlock (p2pkh_script (repeat 7 20)) [] 1].
Definition ex_entries (us : list unlock) : list txhash := match create_hashes toy_hash ex_shex us false btc_main with Ok h => h | _ => [] end.
Definition ex_sent (hs : list txhash) (us : list unlock) : list Z := match insert_signatures toy_hash ex_shex hs us false with Ok s => s | _ => [] end.
Definition ex_by_shared : list Z := ex_sent (map (BtcMultiProps.fill BtcMultiProps.ex_rep) (ex_entries ex_shared)) ex_shared.
Definition ex_by_one : list Z := ex_sent (sign_all (ex_entries ex_alone) [ex_sp 1]) ex_alone.
Definition ex_without (n : Z) (k : bytes) : bytes := if nth 1 k 0 =? n then [] else 4 :: tl k.
Example shared_check_example : let check d tx us := verify_raw toy_hash d ex_ecdsa tx us false btc_main in
  check (ex_without 9) ex_by_shared ex_shared = Ok true /\ check (ex_without 3) ex_by_shared ex_shared = Panic /\ check ex_points ex_shex ex_shared = Panic /\
  check (ex_without 9) ex_by_one ex_alone = Ok true /\ check (ex_without 9) ex_by_one ex_shared = Panic /\ check (ex_without 9) ex_by_shared ex_alone = Panic.
Proof. cbv zeta. repeat (split; [vm_compute; reflexivity|]). vm_compute. reflexivity. Qed.
(** A witness-free input whose script makes the reader crash. *)
Example stuck_example : script_stuck [0; 2; 0x50; 0xAE] /\ script_stuck [0; 3; 0x50; 0x51; 0xAE] /\ ~ script_stuck [0; 3; 0x50; 0x50; 0xAE] /\ decode_multi [0; 3; 0x50; 0x50; 0xAE] = Ok [].
Proof.
  assert (B : forall l, forallb (fun x => (0 <=? x) && (x <? 256)) l = true -> is_bytes l) by (intros l F; rewrite forallb_forall in F; apply Forall_forall; intros x I; specialize (F x I); unfold is_byte; lia).
  split; [apply decode_multi_stuck; [apply B|]; reflexivity|]. split; [apply decode_multi_stuck; [apply B|]; reflexivity|]. split; [|reflexivity]. rewrite <- decode_multi_stuck by (apply B; reflexivity). discriminate.
Qed.
Example mismatch_hypotheses_met : exists b t i ins th ths r, hex_decode ex_by_one = Ok b /\ decode_tx b false = Ok t /\ zlen (tx_vins t) = zlen ex_shared /\ hashes_for_sig toy_hash (clone_empty t) ex_shared false btc_main = Ok (th :: ths) /\ tx_vins t = i :: ins /\
  th_multi th <> [] /\ In (in_type i) single_types /\ decode_script (in_sig i) = Ok r.
Proof. eexists _, _, _, _, _, _, _. split; [vm_compute; reflexivity|]. split; [vm_compute; reflexivity|]. split; [reflexivity|]. split; [vm_compute; reflexivity|]. split; [reflexivity|]. split; [discriminate|]. split; [left; reflexivity|]. vm_compute. reflexivity. Qed.
Example shared_hypotheses_met : exists b t i ins th ths sp sps, hex_decode ex_by_shared = Ok b /\ decode_tx b false = Ok t /\ zlen (tx_vins t) = zlen ex_alone /\ hashes_for_sig toy_hash (clone_empty t) ex_alone false btc_main = Ok (th :: ths) /\ tx_vins t = i :: ins /\
  th_multi th = [] /\ in_type i = TypeMultiSig /\ decode_multi (in_multi i) = Ok (sp :: sps).
Proof. eexists _, _, _, _, _, _, _, _. split; [vm_compute; reflexivity|]. split; [vm_compute; reflexivity|]. split; [reflexivity|]. split; [vm_compute; reflexivity|]. split; [reflexivity|]. split; [reflexivity|]. split; [reflexivity|]. vm_compute. reflexivity. Qed.
Example unsigned_hypotheses_met : exists b t ths, hex_decode ex_shex = Ok b /\ decode_tx b false = Ok t /\ Forall (fun i => in_type i = TypeEmpty) (tx_vins t) /\ zlen (tx_vins t) = zlen ex_shared /\ hashes_for_sig toy_hash (clone_empty t) ex_shared false btc_main = Ok ths /\ ex_points [] = [].
Proof. eexists _, _, _. split; [vm_compute; reflexivity|]. split; [vm_compute; reflexivity|]. split; [constructor; [reflexivity|constructor]|]. split; [reflexivity|]. split; [vm_compute; reflexivity|]. reflexivity. Qed.
Print Assumptions btc_any_check_crashes_exactly.
Print Assumptions fam_any_check_crashes_exactly.
Print Assumptions sound_keys_crash_only_on_mismatch.
Print Assumptions single_for_shared_crashes.
Print Assumptions shared_for_single_crashes.
Print Assumptions unsigned_any_check_crashes.
