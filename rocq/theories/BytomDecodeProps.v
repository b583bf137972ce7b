(** DecodeRawTransaction of bytomTransaction: exactly which bytes are accepted, what is shown for them, which bytes make it
    panic, and which different texts are shown as the same transaction. *)
From Coq Require Import ZArith List Bool Lia ZifyBool ZifyNat.
From Verif Require Import Go GoFacts GoFacts2 Rd AddressProps BtcDecodeProps BytomModel.
Import ListNotations.
Open Scope Z_scope.
Ltac Zify.zify_post_hook ::= idtac.

(** ** Specification *)
(** A group of bytes of which exactly the last is below 0x80. *)
Definition low_end (g : bytes) : Prop := exists l z, g = l ++ [z] /\ Forall (fun x => 128 <= x) l /\ z < 128.
(** Bytes that begin such a group and never end it. *)
Definition no_end (l : bytes) : Prop := l <> [] /\ Forall (fun x => 128 <= x) l.
(** The commitment of an input: version, length of the rest, the output spent and its program; all but the group for the amount
    have one byte or a fixed length. *)
Inductive commit_text : bytes -> bytes * bytes * bytes * bytes * bytes -> Prop :=
| commit_of source asset amount position program :
    zlen source = 32 -> zlen asset = 32 -> low_end amount -> 1 <= zlen program ->
    let body := source ++ asset ++ amount ++ position :: 1 :: zlen program :: program in
    zlen body <= 253 -> commit_text (1 :: zlen body :: body) (source, asset, amount, [position], program).
(** The witness of an input and what is shown for it: none; a signature and a key, whatever the length in front of them is
    unless it is 0 or 1; or a multi-signature script one byte longer than the length in front of it. *)
Inductive wit_text : bytes -> option sigpub -> option bytes -> Prop :=
| wit_none : wit_text [1; 0] None None
| wit_pair n sig pub : 2 <= n <= 255 -> zlen sig = 64 -> zlen pub = 32 ->
    wit_text (n :: [2; 64] ++ sig ++ 32 :: pub) (Some {| p_sig := Some sig; p_pub := pub |}) None
| wit_multi m : zlen m <= 254 -> m <> [] -> wit_text ((zlen m + 1) :: 1 :: 3 :: m) None (Some (1 :: 3 :: m)).
Inductive spend_text : bytes -> txin -> Prop :=
| spend_of c source asset amount position program w s m :
    commit_text c (source, asset, amount, position, program) -> wit_text w s m ->
    spend_text (1 :: zlen c :: c ++ w) {| i_source := source; i_position := position; i_asset := asset; i_amount := amount; i_program := program; i_sig := s; i_multi := m |}.
(** An output; its program is shown with the length in front. *)
Inductive pay_text : bytes -> txout -> Prop :=
| pay_of asset amount program : zlen asset = 32 -> low_end amount -> 1 <= zlen program ->
    let s := asset ++ amount ++ 1 :: zlen program :: program in
    zlen s <= 255 -> pay_text (1 :: zlen s :: s ++ [0]) {| o_asset := asset; o_program := zlen program :: program; o_amount := amount |}.
(** What makes it panic: an amount whose group does not end within its commitment or script. *)
Definition commit_stuck (c : bytes) : Prop := exists source asset l, zlen source = 32 /\ zlen asset = 32 /\ no_end l /\ c = 1 :: (64 + zlen l) :: source ++ asset ++ l.
Definition spend_stuck (b : bytes) : Prop := exists c r, commit_stuck c /\ zlen c <= 255 /\ b = 1 :: zlen c :: c ++ r.
Definition pay_stuck (b : bytes) : Prop := exists asset l r, zlen asset = 32 /\ no_end l /\ zlen l <= 223 /\ b = 1 :: (32 + zlen l) :: asset ++ l ++ r.

(** ** Groups *)
Lemma u8_small x : 0 <= x < 256 -> u8 x = x.
Proof. intros H. unfold u8. apply Z.mod_small. exact H. Qed.
Lemma both_len {A B} (R : A -> B -> Prop) l m : Forall2 R l m -> length l = length m.
Proof. induction 1; cbn [length]; lia. Qed.
Lemma scan_more_low {A} g : low_end g -> forall acc rest (k : bytes -> bytes -> res A), scan_more acc (g ++ rest) k = k (acc ++ g) rest.
Proof.
  intros (l & z & -> & F & Hz). induction F as [|x l X F IH]; intros acc rest k; cbn [app scan_more].
  - replace (z <? 128) with true by lia. reflexivity.
  - replace (x <? 128) with false by lia. rewrite IH. rewrite <- app_assoc. reflexivity.
Qed.
Lemma low_end_cons g : low_end g -> exists x r, g = x :: r.
Proof. intros (l & z & -> & _). destruct l; cbn [app]; eauto. Qed.
Lemma scan_var_low {A} g rest (k : bytes -> bytes -> res A) : low_end g -> scan_var (g ++ rest) k = k g rest.
Proof. intros G. destruct (low_end_cons g G) as (x & r & E). unfold scan_var. rewrite E at 1. cbn [app]. apply (scan_more_low g G []). Qed.
Lemma scan_var_no_end {A} l (k : bytes -> bytes -> res A) : no_end l -> scan_var l k = Panic.
Proof.
  intros [N F]. unfold scan_var. destruct l as [|x l]; [contradiction|]. clear N. revert F. generalize (x :: l). intros b F. generalize (@nil Z). induction F as [|y b Y F IH]; intros acc; [reflexivity|]. cbn [scan_more]. replace (y <? 128) with false by lia. apply IH.
Qed.
Lemma group_cases b : b = [] \/ (exists g r, low_end g /\ b = g ++ r) \/ no_end b.
Proof.
  induction b as [|x b IH]; [left; reflexivity|right]. destruct (Z_lt_dec x 128) as [L|L].
  - left. exists [x], b. split; [|reflexivity]. exists [], x. split; [reflexivity|]. split; [constructor|lia].
  - destruct IH as [->|[(g & r & (l & z & -> & F & Hz) & ->)|[N F]]].
    + right. split; [discriminate|]. constructor; [lia|constructor].
    + left. exists ((x :: l) ++ [z]), r. split; [|reflexivity]. exists (x :: l), z. split; [reflexivity|]. split; [constructor; [lia|exact F]|exact Hz].
    + right. split; [discriminate|]. constructor; [lia|exact F].
Qed.
Lemma low_end_len g : low_end g -> 1 <= zlen g.
Proof. intros G. destruct (low_end_cons g G) as (x & r & ->). rewrite zlen_cons. pose proof (zlen_nonneg r). lia. Qed.
Lemma bytes_inv x r : is_bytes (x :: r) -> 0 <= x < 256 /\ is_bytes r.
Proof. intros B. apply is_bytes_cons in B as [X B]. unfold is_byte in X. split; [lia|exact B]. Qed.
Lemma none_left {A} (r : list A) : zlen r = 0 -> r = [].
Proof. destruct r; [reflexivity|]. rewrite zlen_cons. pose proof (zlen_nonneg r). lia. Qed.
Ltac field n r a r' L := match goal with |- context [need n r ?k] => let E := fresh in destruct (need_cases n r k) as [[L E]|(a & r' & -> & L & E)]; [lia|rewrite E; tauto|rewrite E; clear E] end.

(** ** Commitments *)
Lemma commit_taken c x : commit_text c x -> decode_commitment c = Ok x.
Proof.
  intros [source asset amount position program L1 L2 G L3 body L4]. unfold decode_commitment. cbn [need1]. change (1 =? 1) with true. cbn [negb]. rewrite !zlen_cons. replace (1 + (1 + zlen body) - 2) with (zlen body) by lia. pose proof (zlen_nonneg body). rewrite u8_small by lia. rewrite Z.eqb_refl. cbn [negb].
  unfold body. rewrite need_app by exact L1. rewrite need_app by exact L2. rewrite scan_var_low by exact G. cbn [need1]. change (1 =? 1) with true. cbn [negb]. replace (zlen program =? 0) with false by lia. rewrite Z.eqb_refl. reflexivity.
Qed.
Lemma commit_panics c : zlen c <= 255 -> commit_stuck c -> decode_commitment c = Panic.
Proof.
  intros Lc (source & asset & l & L1 & L2 & N & ->). rewrite !zlen_cons, !zlen_app in Lc. pose proof (zlen_nonneg l). unfold decode_commitment. cbn [need1]. change (1 =? 1) with true. cbn [negb]. rewrite !zlen_cons, !zlen_app, L1, L2. replace (1 + (1 + (32 + (32 + zlen l))) - 2) with (64 + zlen l) by lia. rewrite u8_small by lia. rewrite Z.eqb_refl. cbn [negb].
  rewrite need_app by exact L1. rewrite need_app by exact L2. apply scan_var_no_end. exact N.
Qed.
Lemma commit_cases c : is_bytes c -> zlen c <= 255 -> (exists x, commit_text c x) \/ commit_stuck c \/ decode_commitment c = Err.
Proof.
  intros B Lc. unfold decode_commitment. destruct c as [|v c]; [tauto|]. cbn [need1]. destruct (v =? 1) eqn:V; cbn [negb]; [|tauto]. assert (v = 1) by lia; subst v. destruct c as [|l c]; [tauto|]. cbn [need1]. rewrite !zlen_cons in *. pose proof (zlen_nonneg c). replace (1 + (1 + zlen c) - 2) with (zlen c) by lia. rewrite u8_small by lia. destruct (l =? zlen c) eqn:L; cbn [negb]; [|tauto]. assert (l = zlen c) by lia; subst l. clear L V.
  field 32 c source r1 L1. field 32 r1 asset r2 L2. destruct (group_cases r2) as [->|[(amount & r3 & G & ->)|N]].
  - right; right. reflexivity.
  - rewrite scan_var_low by exact G. destruct r3 as [|position r3]; [tauto|]. cbn [need1]. destruct r3 as [|vm r3]; [tauto|]. cbn [need1]. destruct (vm =? 1) eqn:V; cbn [negb]; [|tauto]. assert (vm = 1) by lia; subst vm. destruct r3 as [|n program]; [tauto|]. cbn [need1]. destruct (n =? 0) eqn:N0; [tauto|]. destruct (zlen program =? n) eqn:Lp; cbn [negb]; [|tauto]. assert (zlen program = n) by lia; subst n. pose proof (zlen_nonneg program).
    left. eexists. apply commit_of; try assumption; lia.
  - right; left. exists source, asset, r2. repeat (split; [assumption|]). rewrite !zlen_app, L1, L2. do 2 f_equal. lia.
Qed.
(** ** Inputs *)
Lemma commit_len c x : commit_text c x -> 1 <= zlen c <= 255.
Proof. intros [source asset amount position program L1 L2 G L3 body L4]. rewrite !zlen_cons. pose proof (zlen_nonneg body). lia. Qed.
Lemma decode_in_reads : reads decode_in spend_text spend_stuck.
Proof.
  split; [|split].
  - intros w x r T. destruct T as [c source asset amount position program w s m C W]. pose proof (commit_len _ _ C) as Lc. unfold decode_in. cbn [app need1]. change (1 =? 1) with true. cbn [negb]. replace (zlen c =? 0) with false by lia. rewrite <- app_assoc. rewrite need_app by reflexivity. rewrite (commit_taken _ _ C). cbn [bind]. destruct W as [|n sig pub N L1 L2|m L N]; cbn [app need1].
    + reflexivity.
    + replace (n =? 1) with false by lia. replace (n =? 0) with false by lia. change (2 =? 2) with true. change (64 =? 64) with true. cbn [andb]. rewrite <- app_assoc. rewrite need_app by exact L1. cbn [app need1]. change (32 =? 32) with true. cbn [negb]. rewrite need_app by exact L2. reflexivity.
    + pose proof (zlen_nonneg m). replace (zlen m + 1 =? 1) with false by (destruct m; [contradiction|rewrite zlen_cons in *; pose proof (zlen_nonneg m); lia]). replace (zlen m + 1 =? 0) with false by lia. change (1 =? 2) with false. change (1 =? 1) with true. change (3 =? 3) with true. cbn [andb]. change (1 :: 3 :: m ++ r) with ((1 :: 3 :: m) ++ r). rewrite need_app by (rewrite !zlen_cons; lia). reflexivity.
  - intros b (c & r & C & L & ->). unfold decode_in. cbn [need1]. change (1 =? 1) with true. cbn [negb]. replace (zlen c =? 0) with false by (destruct C as (? & ? & ? & _ & _ & _ & ->); rewrite !zlen_cons; pose proof (zlen_nonneg (x ++ x0 ++ x1)); lia). rewrite need_app by reflexivity. rewrite (commit_panics _ L C). reflexivity.
  - intros b B. unfold decode_in at 1. destruct b as [|v b]; [tauto|]. cbn [need1]. apply bytes_inv in B as [_ B]. destruct (v =? 1) eqn:V; cbn [negb]; [|tauto]. assert (v = 1) by lia; subst v. destruct b as [|n b]; [tauto|]. cbn [need1]. apply bytes_inv in B as [Hn B]. destruct (n =? 0) eqn:N0; [tauto|]. field n b c r L. apply is_bytes_app in B as [Bc B]. subst n. clear V N0.
    destruct (commit_cases c Bc ltac:(lia)) as [[x C]|[C|E]]; [|right; left; exists c, r; repeat split; [exact C|lia]|rewrite E; tauto].
    rewrite (commit_taken _ _ C). cbn [bind]. destruct x as [[[[source asset] amount] position] program]. cbv zeta.
    assert (D : forall w s m r', wit_text w s m -> r = w ++ r' -> exists w x r0, spend_text w x /\ 1 :: zlen c :: c ++ r = w ++ r0). { intros w s m r' W ->. eexists (1 :: zlen c :: c ++ w), _, r'. split; [apply (spend_of c source asset amount position program w s m C W)|]. cbn [app]. rewrite <- app_assoc. reflexivity. }
    destruct r as [|w r]; [tauto|]. apply bytes_inv in B as [Hw B]. cbn [need1]. destruct (w =? 1) eqn:W1.
    { assert (w = 1) by lia; subst w. destruct r as [|z r]; [tauto|]. cbn [need1]. destruct (z =? 0) eqn:Z0; cbn [negb]; [|tauto]. assert (z = 0) by lia; subst z. left. eapply D; [apply wit_none|reflexivity]. }
    destruct (w =? 0) eqn:W0; [tauto|]. destruct r as [|a [|a2 r]]; [tauto|tauto|]. destruct ((a =? 2) && (a2 =? 64)) eqn:A.
    { assert (a = 2) by lia; assert (a2 = 64) by lia; subst a a2. field 64 r sg r1 L1. destruct r1 as [|q r1]; [tauto|]. cbn [need1]. destruct (q =? 32) eqn:Q; cbn [negb]; [|tauto]. assert (q = 32) by lia; subst q. field 32 r1 pub r2 L2. left. eapply (D _ _ _ r2); [apply (wit_pair w sg pub); lia|]. cbn [app]. rewrite <- app_assoc. reflexivity. }
    destruct ((a =? 1) && (a2 =? 3)) eqn:A'; [|tauto]. assert (a = 1) by lia; assert (a2 = 3) by lia; subst a a2.
    match goal with |- context [need (w + 1) ?r ?k] => destruct (need_cases (w + 1) r k) as [[L E]|(m & r' & E0 & L & E)]; [lia|rewrite E; tauto|rewrite E; clear E] end.
    destruct m as [|x [|y m]]; [change (zlen (@nil Z)) with 0 in L; lia|rewrite zlen_cons in L; change (zlen (@nil Z)) with 0 in L; lia|]. cbn [app] in E0. injection E0 as <- <- ->. rewrite !zlen_cons in L. left. eapply (D _ _ _ r'); [apply (wit_multi m); [lia|intros ->; change (zlen (@nil Z)) with 0 in L; lia]|]. cbn [app]. f_equal. lia.
Qed.
(** ** Outputs *)
Lemma decode_out_reads : reads decode_out pay_text pay_stuck.
Proof.
  split; [|split].
  - intros w x r T. destruct T as [asset amount program L1 G L2 s L3]. unfold decode_out. cbn [app need1]. change (1 =? 1) with true. cbn [negb]. replace (zlen s =? 0) with false by (unfold s; rewrite !zlen_app, !zlen_cons; pose proof (zlen_nonneg amount); lia). rewrite <- app_assoc. rewrite need_app by reflexivity.
    assert (E : decode_output_script s = Ok (asset, amount, zlen program :: program)).
    { unfold decode_output_script, s. rewrite need_app by exact L1. rewrite scan_var_low by exact G. cbn [need1]. change (1 =? 1) with true. cbn [negb]. replace (zlen program =? 0) with false by lia. rewrite <- (app_nil_r program) at 2. rewrite need_app by reflexivity. reflexivity. }
    rewrite E. reflexivity.
  - intros b (asset & l & r & L1 & N & L2 & ->). unfold decode_out. cbn [need1]. change (1 =? 1) with true. cbn [negb]. pose proof (zlen_nonneg l). replace (32 + zlen l =? 0) with false by lia. rewrite app_assoc. rewrite need_app by (rewrite zlen_app; lia).
    assert (E : decode_output_script (asset ++ l) = Panic) by (unfold decode_output_script; rewrite need_app by exact L1; apply scan_var_no_end; exact N). rewrite E. reflexivity.
  - intros b B. unfold decode_out at 1. destruct b as [|v b]; [tauto|]. cbn [need1]. apply bytes_inv in B as [_ B]. destruct (v =? 1) eqn:V; cbn [negb]; [|tauto]. assert (v = 1) by lia; subst v. destruct b as [|n b]; [tauto|]. cbn [need1]. apply bytes_inv in B as [Hn B]. destruct (n =? 0) eqn:N0; [tauto|]. field n b s r L. subst n. unfold decode_output_script. clear V N0.
    match goal with |- context [need 32 s ?k] => destruct (need_cases 32 s k) as [[L E]|(asset & r1 & -> & L & E)]; [lia|rewrite E; tauto|rewrite E; clear E] end.
    destruct (group_cases r1) as [->|[(amount & r3 & G & ->)|N]]; [tauto| |].
    2:{ right; left. exists asset, r1, r. split; [exact L|]. split; [exact N|]. rewrite zlen_app in *. split; [lia|]. rewrite <- app_assoc, L. reflexivity. }
    rewrite scan_var_low by exact G. destruct r3 as [|q r3]; [tauto|]. cbn [need1]. destruct (q =? 1) eqn:V; cbn [negb]; [|tauto]. assert (q = 1) by lia; subst q. destruct r3 as [|n r3]; [tauto|]. cbn [need1]. destruct (n =? 0) eqn:N0; [tauto|].
    assert (Hp : 0 <= n). { apply is_bytes_app in B as [B _]. apply is_bytes_app in B as [_ B]. apply is_bytes_app in B as [_ B]. apply bytes_inv in B as [_ B]. apply bytes_inv in B as [B _]. lia. }
    match goal with |- context [need n r3 ?k] => destruct (need_cases n r3 k) as [[L' E]|(p & r4 & -> & L' & E)]; [lia|rewrite E; tauto|rewrite E; clear E] end.
    destruct (zlen r4 =? 0) eqn:R4; cbn [negb]; [|tauto]. assert (r4 = []) by (apply none_left; lia). subst r4. cbn [bind]. destruct r as [|z r]; [tauto|]. cbn [need1]. destruct (z =? 0) eqn:Z0; cbn [negb]; [|tauto]. assert (z = 0) by lia; subst z n. rewrite app_nil_r in *.
    left. eexists _, _, r. split; [apply (pay_of asset amount p); try assumption; lia|]. cbn [app]. rewrite <- (app_assoc _ [0] r). reflexivity.
Qed.
(** ** The transaction *)
Lemma scan_version_skip {A} vs v rest (k : bytes -> bytes -> res A) : Forall (fun x => 128 <= x) vs -> v < 128 -> scan_version (vs ++ v :: rest) k = k [v] rest.
Proof. intros F V. induction F as [|x l X F IH]; cbn [app scan_version]; [replace (v <? 128) with true by lia; reflexivity|]. replace (x <? 128) with false by lia. exact IH. Qed.
Lemma scan_version_cases {A} rest (k : bytes -> bytes -> res A) : (exists vs v r, Forall (fun x => 128 <= x) vs /\ v < 128 /\ rest = vs ++ v :: r) \/ scan_version rest k = Err.
Proof.
  induction rest as [|x l IH]; [right; reflexivity|]. cbn [scan_version]. destruct (x <? 128) eqn:X; [left; exists [], x, l; split; [constructor|split; [lia|reflexivity]]|]. destruct IH as [(vs & v & r & F & V & ->)|E]; [|right; exact E]. left. exists (x :: vs), v, r. split; [constructor; [lia|exact F]|]. split; [exact V|reflexivity].
Qed.
Lemma tx_start vs v range n rest : Forall (fun x => 128 <= x) vs -> v < 128 -> low_end range -> 1 <= n ->
  decode_tx (7 :: vs ++ v :: range ++ n :: rest) =
  ('(ins, rest) <- readn (Z.to_nat n) decode_in rest ;;
   need1 rest (fun m rest =>
   if m =? 0 then Err else
   '(outs, rest) <- readn (Z.to_nat m) decode_out rest ;;
   if negb (zlen rest =? 0) then Err else
   Ok {| t_version := [v]; t_range := range; t_ins := ins; t_outs := outs |})).
Proof.
  intros F V G N. unfold decode_tx. cbn [need1]. change (7 =? 7) with true. cbn [negb]. rewrite scan_version_skip by assumption. rewrite scan_var_low by exact G. cbn [need1]. replace (n <=? 0) with false by lia. reflexivity.
Qed.
Lemma tx_start_cases b : is_bytes b ->
  (exists vs v range n rest, Forall (fun x => 128 <= x) vs /\ v < 128 /\ low_end range /\ 1 <= n <= 255 /\ is_bytes rest /\ b = 7 :: vs ++ v :: range ++ n :: rest) \/
  (exists vs v l, Forall (fun x => 128 <= x) vs /\ v < 128 /\ no_end l /\ b = 7 :: vs ++ v :: l) \/ decode_tx b = Err.
Proof.
  intros B. unfold decode_tx. destruct b as [|f b]; [tauto|]. cbn [need1]. apply bytes_inv in B as [_ B]. destruct (f =? 7) eqn:E7; cbn [negb]; [|tauto]. assert (f = 7) by lia; subst f.
  match goal with |- context [scan_version b ?k] => destruct (scan_version_cases b k) as [(vs & v & r & F & V & ->)|E]; [|rewrite E; tauto] end. rewrite scan_version_skip by assumption. apply is_bytes_app in B as [_ B]. apply bytes_inv in B as [_ B].
  destruct (group_cases r) as [->|[(g & r' & G & ->)|N]]; [tauto| |right; left; exists vs, v, r; auto]. rewrite scan_var_low by exact G. apply is_bytes_app in B as [_ B]. destruct r' as [|n r']; [tauto|]. cbn [need1]. apply bytes_inv in B as [Hn B]. destruct (n <=? 0) eqn:N0; [tauto|]. left. exists vs, v, g, n, r'. repeat (split; [assumption || lia|]). reflexivity.
Qed.
(** C136. *)
Theorem bytom_decode_iff : forall b t, is_bytes b ->
  (decode_tx b = Ok t <->
   exists more version range ib ins ob outs,
     Forall (fun x => 128 <= x) more /\ version < 128 /\ low_end range /\
     Forall2 spend_text ib ins /\ 1 <= zlen ins <= 255 /\ Forall2 pay_text ob outs /\ 1 <= zlen outs <= 255 /\
     b = 7 :: more ++ version :: range ++ zlen ins :: concat ib ++ zlen outs :: concat ob /\
     t = {| t_version := [version]; t_range := range; t_ins := ins; t_outs := outs |}).
Proof.
  intros b t B. split.
  - intros E. destruct (tx_start_cases b B) as [(vs & v & g & n & rest & F & V & G & N & Br & ->)|[(vs & v & l & F & V & N & ->)|E']]; [| |congruence].
    2:{ unfold decode_tx in E. cbn [need1] in E. change (7 =? 7) with true in E. cbn [negb] in E. rewrite scan_version_skip in E by assumption. rewrite scan_var_no_end in E by exact N. discriminate. }
    rewrite tx_start in E by (assumption || lia).
    apply bind_ok in E as ([ins r1] & E1 & E). pose proof (readn_length _ _ _ _ _ E1) as Li. apply (reads_ok _ _ _ _ _ _ (readn_reads _ _ _ decode_in_reads _)) in E1 as (w & (ib & Fi & Lib & ->) & ->); [|exact Br]. apply is_bytes_app in Br as [_ Br].
    apply need1_inv in E as (k & r2 & -> & E). apply bytes_inv in Br as [Bk Br]. destruct (k =? 0) eqn:K0; [discriminate|].
    apply bind_ok in E as ([outs r3] & E1 & E). pose proof (readn_length _ _ _ _ _ E1) as Lo. apply (reads_ok _ _ _ _ _ _ (readn_reads _ _ _ decode_out_reads _)) in E1 as (w & (ob & Fo & Lob & ->) & ->); [|exact Br].
    destruct (zlen r3 =? 0) eqn:R3; [|discriminate]. assert (r3 = []) by (apply none_left; lia). subst r3. rewrite app_nil_r in *. assert (zlen ins = n) by (unfold zlen; lia). assert (zlen outs = k) by (unfold zlen; lia). subst n k.
    exists vs, v, g, ib, ins, ob, outs. repeat (split; [assumption || lia || reflexivity|]). cbn [negb] in E. congruence.
  - intros (vs & v & g & ib & ins & ob & outs & F & V & G & Fi & Ni & Fo & No & -> & ->). rewrite tx_start by (assumption || lia).
    destruct (readn_reads _ _ _ decode_in_reads (Z.to_nat (zlen ins))) as (R & _). rewrite (R (concat ib) ins); [|exists ib; split; [exact Fi|split; [rewrite (both_len _ _ _ Fi); unfold zlen; lia|reflexivity]]]. cbn [bind need1]. replace (zlen outs =? 0) with false by lia.
    destruct (readn_reads _ _ _ decode_out_reads (Z.to_nat (zlen outs))) as (R' & _). rewrite <- (app_nil_r (concat ob)). rewrite (R' (concat ob) outs); [|exists ob; split; [exact Fo|split; [rewrite (both_len _ _ _ Fo); unfold zlen; lia|reflexivity]]]. reflexivity.
Qed.
(** C136. *)
Theorem bytom_decode_panics_iff : forall b, is_bytes b ->
  (decode_tx b = Panic <->
   exists more version p, Forall (fun x => 128 <= x) more /\ version < 128 /\ b = 7 :: more ++ version :: p /\
     (no_end p \/
      exists range n ib ins r, low_end range /\ 1 <= n /\ Forall2 spend_text ib ins /\ p = range ++ n :: concat ib ++ r /\
        ((zlen ins < n /\ spend_stuck r) \/
         (zlen ins = n /\ exists k ob outs q, Forall2 pay_text ob outs /\ zlen outs < k /\ r = k :: concat ob ++ q /\ pay_stuck q)))).
Proof.
  intros b B. split.
  - intros E. destruct (tx_start_cases b B) as [(vs & v & g & n & rest & F & V & G & N & Br & ->)|[(vs & v & l & F & V & N & ->)|E']]; [| |congruence].
    2:{ exists vs, v, l. auto. }
    rewrite tx_start in E by (assumption || lia). exists vs, v, (g ++ n :: rest). split; [exact F|]. split; [exact V|]. split; [reflexivity|]. right.
    destruct (readn (Z.to_nat n) decode_in rest) as [[ins r1]| |] eqn:E1; cbn [bind] in E; [|discriminate|].
    + pose proof (readn_length _ _ _ _ _ E1) as Li. apply (reads_ok _ _ _ _ _ _ (readn_reads _ _ _ decode_in_reads _)) in E1 as (w & (ib & Fi & Lib & ->) & ->); [|exact Br]. apply is_bytes_app in Br as [_ Br].
      destruct r1 as [|k r2]; [discriminate|]. cbn [need1] in E. apply bytes_inv in Br as [Bk Br]. destruct (k =? 0) eqn:K0; [discriminate|].
      destruct (readn (Z.to_nat k) decode_out r2) as [[outs r3]| |] eqn:E1; cbn [bind] in E; [destruct (negb _) in E; discriminate|discriminate|].
      apply (reads_panic _ _ _ _ (readn_reads _ _ _ decode_out_reads _) Br) in E1 as (ob & outs & q & Fo & L & -> & S).
      exists g, n, ib, ins, (k :: concat ob ++ q). split; [exact G|]. split; [lia|]. split; [exact Fi|]. split; [reflexivity|]. right. split; [unfold zlen; lia|]. exists k, ob, outs, q. split; [exact Fo|]. split; [|split; [reflexivity|exact S]]. rewrite (both_len _ _ _ Fo) in L. unfold zlen. lia.
    + apply (reads_panic _ _ _ _ (readn_reads _ _ _ decode_in_reads _) Br) in E1 as (ib & ins & r & Fi & L & -> & S). exists g, n, ib, ins, r. split; [exact G|]. split; [lia|]. split; [exact Fi|]. split; [reflexivity|]. left. split; [|exact S]. rewrite (both_len _ _ _ Fi) in L. unfold zlen. lia.
  - intros (vs & v & p & F & V & -> & [N|(g & n & ib & ins & r & G & N & Fi & -> & H)]).
    + unfold decode_tx. cbn [need1]. change (7 =? 7) with true. cbn [negb]. rewrite scan_version_skip by assumption. apply scan_var_no_end. exact N.
    + rewrite tx_start by assumption. destruct (readn_reads _ _ _ decode_in_reads (Z.to_nat n)) as (R & R' & _). pose proof (both_len _ _ _ Fi) as Li. destruct H as [(L & S)|(L & k & ob & outs & q & Fo & Lk & -> & S)].
      * rewrite (R' (concat ib ++ r)); [reflexivity|]. exists ib, ins, r. split; [exact Fi|]. split; [unfold zlen in L; lia|]. split; [reflexivity|exact S].
      * rewrite (R (concat ib) ins); [|exists ib; split; [exact Fi|split; [unfold zlen in L; lia|reflexivity]]]. cbn [bind need1]. pose proof (zlen_nonneg outs). replace (k =? 0) with false by lia. destruct (readn_reads _ _ _ decode_out_reads (Z.to_nat k)) as (_ & Q & _). rewrite (Q (concat ob ++ q)); [reflexivity|]. pose proof (both_len _ _ _ Fo). exists ob, outs, q. split; [exact Fo|]. split; [unfold zlen in Lk; lia|]. split; [reflexivity|exact S].
Qed.
(** ** Different texts of the same transaction *)
(** Two texts of an input that differ at most in the length in front of a signature and a key. *)
Inductive alike : bytes -> bytes -> Prop :=
| alike_same w : alike w w
| alike_length c n n' sig pub : zlen sig = 64 -> zlen pub = 32 -> 2 <= n' <= 255 ->
    alike (1 :: zlen c :: c ++ n :: [2; 64] ++ sig ++ 32 :: pub) (1 :: zlen c :: c ++ n' :: [2; 64] ++ sig ++ 32 :: pub).
Lemma commit_inj c c' x : commit_text c x -> commit_text c' x -> c = c'.
Proof. intros [source asset amount position program _ _ _ _ body _] C. inversion C; subst. reflexivity. Qed.
Lemma spend_alike w w' x : spend_text w x -> spend_text w' x -> alike w w'.
Proof.
  intros [c source asset amount position program w1 s m C W] T. inversion T as [c' source' asset' amount' position' program' w1' s' m' C' W']; subst. pose proof (commit_inj _ _ _ C C') as <-. clear C' T. destruct W as [|n sig pub N L1 L2|m L N]; inversion W'; subst; apply alike_same || (apply alike_length; assumption).
Qed.
Lemma app_len_inj {A} (a a' b b' : list A) : length a = length a' -> a ++ b = a' ++ b' -> a = a' /\ b = b'.
Proof. revert a'. induction a as [|x a IH]; intros [|y a'] L E; try discriminate L; [split; [reflexivity|exact E]|]. cbn [app] in E. injection E as -> E. destruct (IH a' ltac:(cbn in L; lia) E) as [-> ->]. split; reflexivity. Qed.
Lemma zlen_app_inj {A} (a a' b b' : list A) : zlen a = zlen a' -> a ++ b = a' ++ b' -> a = a' /\ b = b'.
Proof. intros L. apply app_len_inj. unfold zlen in L. lia. Qed.
Lemma alike_spend w w' x : spend_text w x -> alike w w' -> spend_text w' x.
Proof.
  intros T A. destruct A as [|c n n' sig pub L1 L2 N]; [exact T|]. remember (1 :: zlen c :: c ++ n :: [2; 64] ++ sig ++ 32 :: pub) as y eqn:Ey. destruct T as [c0 source asset amount position program w s m C W].
  injection Ey as Lc E1. destruct (zlen_app_inj _ _ _ _ Lc E1) as [-> ->]. clear E1 Lc. apply spend_of; [exact C|]. inversion W; subst.
  destruct (zlen_app_inj sig0 sig (32 :: pub0) (32 :: pub)) as [-> E]; [lia|assumption|]. injection E as ->. apply wit_pair; assumption.
Qed.
Lemma pay_inj w w' x : pay_text w x -> pay_text w' x -> w = w'.
Proof. intros [asset amount program L1 G L2 s L3] T. inversion T; subst. reflexivity. Qed.
Lemma both_map {A B} (R : A -> B -> Prop) (Q : A -> A -> Prop) : (forall w w' x, R w x -> R w' x -> Q w w') -> forall l m, Forall2 R l m -> forall l', Forall2 R l' m -> Forall2 Q l l'.
Proof. intros H l m F. induction F as [|w x l m X F IH]; intros l' F'; inversion F'; subst; constructor; eauto. Qed.
Lemma both_eq {A} (l l' : list A) : Forall2 eq l l' -> l = l'.
Proof. induction 1; congruence. Qed.
(** C136. Exactly which other bytes are shown as the same transaction. *)
Theorem bytom_same_shown_iff : forall b b' t, is_bytes b' -> is_bytes b -> decode_tx b = Ok t ->
  (decode_tx b' = Ok t <->
   exists more more' ib ib' tail,
     Forall (fun x => 128 <= x) more /\ Forall (fun x => 128 <= x) more' /\ Forall2 alike ib ib' /\ Forall2 spend_text ib (t_ins t) /\
     b = 7 :: more ++ t_version t ++ t_range t ++ zlen (t_ins t) :: concat ib ++ tail /\ b' = 7 :: more' ++ t_version t ++ t_range t ++ zlen (t_ins t) :: concat ib' ++ tail).
Proof.
  intros b b' t B' B D. split.
  - intros D'. apply bytom_decode_iff in D as (more & v & g & ib & ins & ob & outs & F & V & G & Fi & Ni & Fo & No & -> & ->); [|exact B]. apply bytom_decode_iff in D' as (more' & v' & g' & ib' & ins' & ob' & outs' & F' & V' & G' & Fi' & Ni' & Fo' & No' & -> & E); [|exact B'].
    injection E as -> -> -> ->. cbn [t_ins t_version t_range]. exists more, more', ib, ib', (zlen outs' :: concat ob). split; [exact F|]. split; [exact F'|]. split; [exact (both_map _ _ spend_alike _ _ Fi _ Fi')|]. split; [exact Fi|]. split; [reflexivity|]. rewrite (both_eq _ _ (both_map _ _ pay_inj _ _ Fo _ Fo')). reflexivity.
  - intros (more & more' & ib & ib' & tail & F & F' & Fa & Fi & Eb & Eb'). pose proof D as D0. apply bytom_decode_iff in D as (more0 & v & g & ib0 & ins & ob & outs & F0 & V & G & Fi0 & Ni & Fo & No & Eb0 & ->); [|exact B]. cbn [t_ins t_version t_range] in *.
    assert (T : tail = zlen outs :: concat ob).
    { rewrite Eb in D0. cbn [app] in D0. rewrite tx_start in D0 by (assumption || lia). destruct (readn_reads _ _ _ decode_in_reads (Z.to_nat (zlen ins))) as (R & _). rewrite (R (concat ib) ins) in D0; [|exists ib; split; [exact Fi|split; [rewrite (both_len _ _ _ Fi); unfold zlen; lia|reflexivity]]].
      cbn [bind] in D0. assert (Bt : is_bytes tail). { rewrite Eb in B. apply bytes_inv in B as [_ B]. apply is_bytes_app in B as [_ B]. apply bytes_inv in B as [_ B]. apply is_bytes_app in B as [_ B]. apply bytes_inv in B as [_ B]. apply is_bytes_app in B as [_ B]. exact B. }
      apply need1_inv in D0 as (k & r2 & -> & E). apply bytes_inv in Bt as [Bk Br]. destruct (k =? 0) eqn:K0; [discriminate|].
      apply bind_ok in E as ([outs' r3] & E1 & E). pose proof (readn_length _ _ _ _ _ E1) as Lo. apply (reads_ok _ _ _ _ _ _ (readn_reads _ _ _ decode_out_reads _)) in E1 as (w & (ob' & Fo' & Lob & ->) & ->); [|exact Br].
      destruct (zlen r3 =? 0) eqn:R3; [|discriminate]. assert (r3 = []) by (apply none_left; lia). subst r3. rewrite app_nil_r in *. assert (outs' = outs) by (cbn [negb] in E; congruence). subst outs'. rewrite (both_eq _ _ (both_map _ _ pay_inj _ _ Fo _ Fo')). f_equal. unfold zlen. lia. }
    subst tail. apply bytom_decode_iff; [exact B'|]. exists more', v, g, ib', ins, ob, outs. repeat (split; [assumption|]). split; [|repeat (split; [assumption|]); reflexivity].
    clear -Fi Fa. revert ib' Fa. induction Fi as [|w x ib ins X Fi IH]; intros ib' Fa; inversion Fa; subst; constructor; [eapply alike_spend; eassumption|auto].
Qed.

(** ** Concrete cases *)
(** An unsigned, a signed and a multi-signature input; the length in front of the signature does not count. *)
Definition ex_commit : bytes := let body := repeat 7 32 ++ repeat 255 32 ++ [200; 1] ++ 0 :: 1 :: 22 :: 0 :: 20 :: repeat 9 20 in 1 :: zlen body :: body.
Definition ex_spend (s : option sigpub) (m : option bytes) : txin :=
  {| i_source := repeat 7 32; i_position := [0]; i_asset := repeat 255 32; i_amount := [200; 1]; i_program := 0 :: 20 :: repeat 9 20; i_sig := s; i_multi := m |}.
Definition ex_pair (n : Z) : bytes := n :: [2; 64] ++ repeat 5 64 ++ 32 :: repeat 6 32.
Definition ex_text (n : Z) (more : bytes) : bytes :=
  7 :: more ++ 1 :: [0] ++ 3 :: concat [1 :: zlen ex_commit :: ex_commit ++ [1; 0]; 1 :: zlen ex_commit :: ex_commit ++ ex_pair n; 1 :: zlen ex_commit :: ex_commit ++ [3; 1; 3; 8; 8]] ++
  1 :: concat [1 :: 57 :: (repeat 255 32 ++ [100] ++ 1 :: 22 :: 0 :: 20 :: repeat 4 20) ++ [0]].
Lemma ex_commit_text : commit_text ex_commit (repeat 7 32, repeat 255 32, [200; 1], [0], 0 :: 20 :: repeat 9 20).
Proof. apply (commit_of (repeat 7 32) (repeat 255 32) [200; 1] 0 (0 :: 20 :: repeat 9 20)); try reflexivity; [|vm_compute; discriminate..]. exists [200], 1. split; [reflexivity|]. split; [repeat constructor; lia|lia]. Qed.
Lemma ex_spend_text w s m : wit_text w s m -> spend_text (1 :: zlen ex_commit :: ex_commit ++ w) (ex_spend s m).
Proof. intros W. exact (spend_of _ _ _ _ _ _ _ _ _ ex_commit_text W). Qed.
Example bytom_decode_example : forall n more, 2 <= n <= 255 -> is_bytes more -> Forall (fun x => 128 <= x) more ->
  decode_tx (ex_text n more) = Ok {| t_version := [1]; t_range := [0]; t_ins := [ex_spend None None; ex_spend (Some {| p_sig := Some (repeat 5 64); p_pub := repeat 6 32 |}) None; ex_spend None (Some [1; 3; 8; 8])];
    t_outs := [{| o_asset := repeat 255 32; o_program := 22 :: 0 :: 20 :: repeat 4 20; o_amount := [100] |}] |}.
Proof.
  intros n more N Bm F. apply bytom_decode_iff.
  - unfold ex_text. apply is_bytes_cons. split; [unfold is_byte; lia|]. apply is_bytes_app. split; [exact Bm|]. unfold ex_pair. cbn [concat app]. rewrite <- !app_assoc.
    apply is_bytes_cons. split; [unfold is_byte; lia|].
    assert (X : forall p q, is_bytes p -> is_bytes q -> is_bytes (p ++ n :: q)) by (intros p q Bp Bq; apply is_bytes_app; split; [exact Bp|]; apply is_bytes_cons; split; [unfold is_byte; lia|exact Bq]).
    match goal with |- is_bytes ?l => let p := constr:(0 :: 3 :: (1 :: zlen ex_commit :: ex_commit ++ [1; 0]) ++ 1 :: zlen ex_commit :: ex_commit) in let q := constr:([2; 64] ++ repeat 5 64 ++ 32 :: repeat 6 32 ++ (1 :: zlen ex_commit :: ex_commit ++ [3; 1; 3; 8; 8]) ++ 1 :: (1 :: 57 :: (repeat 255 32 ++ [100] ++ 1 :: 22 :: 0 :: 20 :: repeat 4 20) ++ [0])) in change l with (p ++ n :: q) end.
    apply X; apply forallb_bytes; vm_compute; reflexivity.
  - exists more, 1, [0], [1 :: zlen ex_commit :: ex_commit ++ [1; 0]; 1 :: zlen ex_commit :: ex_commit ++ ex_pair n; 1 :: zlen ex_commit :: ex_commit ++ [3; 1; 3; 8; 8]],
      [ex_spend None None; ex_spend (Some {| p_sig := Some (repeat 5 64); p_pub := repeat 6 32 |}) None; ex_spend None (Some [1; 3; 8; 8])], [1 :: 57 :: (repeat 255 32 ++ [100] ++ 1 :: 22 :: 0 :: 20 :: repeat 4 20) ++ [0]],
      [{| o_asset := repeat 255 32; o_program := 22 :: 0 :: 20 :: repeat 4 20; o_amount := [100] |}]. split; [exact F|]. split; [lia|]. split; [exists [], 0; split; [reflexivity|]; split; [constructor|lia]|]. split; [|split; [|split; [|split; [|split; [unfold ex_text; reflexivity|reflexivity]]]]].
    + constructor; [apply ex_spend_text; apply wit_none|]. constructor; [apply ex_spend_text; apply (wit_pair n (repeat 5 64) (repeat 6 32)); [exact N|reflexivity|reflexivity]|]. constructor; [apply ex_spend_text; apply (wit_multi [8; 8]); [vm_compute; discriminate|discriminate]|constructor].
    + change (1 <= 3 <= 255). lia.
    + constructor; [|constructor]. apply (pay_of (repeat 255 32) [100] (0 :: 20 :: repeat 4 20)); [reflexivity| |vm_compute; discriminate|vm_compute; discriminate]. exists [], 100. split; [reflexivity|]. split; [constructor|lia].
    + change (1 <= 1 <= 255). lia.
Qed.
(** An amount that does not end, in the first input. *)
Example bytom_decode_panic_example : decode_tx (7 :: 1 :: 0 :: 1 :: 1 :: 67 :: 1 :: 65 :: repeat 7 64 ++ [128]) = Panic.
Proof.
  apply bytom_decode_panics_iff; [apply forallb_bytes; vm_compute; reflexivity|]. eexists [], 1, _. split; [constructor|]. split; [lia|]. split; [reflexivity|]. right. exists [0], 1, [], []. eexists. split; [exists [], 0; split; [reflexivity|split; [constructor|lia]]|]. split; [lia|]. split; [constructor|]. split; [reflexivity|]. left. split; [reflexivity|].
  exists (1 :: 65 :: repeat 7 64 ++ [128]), []. split; [|split; [vm_compute; discriminate|reflexivity]]. exists (repeat 7 32), (repeat 7 32), [128]. split; [reflexivity|]. split; [reflexivity|]. split; [split; [discriminate|constructor; [lia|constructor]]|reflexivity].
Qed.
Print Assumptions bytom_decode_iff.
Print Assumptions bytom_decode_panics_iff.
Print Assumptions bytom_same_shown_iff.
