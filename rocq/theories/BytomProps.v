(** C52: Bytom transactions. *)
From Coq Require Import String ZArith List Bool Lia ZifyBool ZifyNat.
From Verif Require Import Go GoFacts GoFacts2 Codes Rd Reader Uvarint Bech32mModel Bech32mProps BytomModel.
Import ListNotations.
Open Scope Z_scope.
Ltac Zify.zify_post_hook ::= idtac.

(** ** Specification: how the chain reads a transaction *)
(** A byte string with its length, and one value that fills such a string. *)
Definition rstr : reader bytes := n <~ rleb ;; rtake n.
Definition inside {A} (r : reader A) : reader A := s <~ rstr ;; match rwhole r s with Some a => rret a | None => rfail end.
Definition rlist {A} (r : reader A) : reader (list A) := n <~ rleb ;; rrepeat (Z.to_nat n) r.
(** What is spent: source, asset, amount, position, control program for version 1 of the machine. *)
Definition rspent : reader (bytes * bytes * Z * Z * bytes) :=
  s <~ rtake 32 ;; a <~ rtake 32 ;; m <~ rleb ;; p <~ rleb ;; _ <~ rexact [1] ;; c <~ rstr ;; rret (s, a, m, p, c).
(** An input: what is spent, and the arguments of its program. *)
Definition rin : reader (bytes * bytes * Z * Z * bytes * list bytes) :=
  _ <~ rexact [1] ;; c <~ inside (_ <~ rexact [1] ;; inside rspent) ;; w <~ inside (rlist rstr) ;; rret (c, w).
(** An output: asset, amount, program; no witness. *)
Definition rout : reader (bytes * Z * bytes) :=
  _ <~ rexact [1] ;; o <~ inside (a <~ rtake 32 ;; m <~ rleb ;; _ <~ rexact [1] ;; c <~ rstr ;; rret (a, m, c)) ;; _ <~ rexact [0] ;; rret o.
(** A transaction: version, time range, inputs, outputs. *)
Definition rtx : reader (Z * Z * list (bytes * bytes * Z * Z * bytes * list bytes) * list (bytes * Z * bytes)) :=
  _ <~ rexact [7] ;; v <~ rleb ;; t <~ rleb ;; is <~ rlist rin ;; os <~ rlist rout ;; rret (v, t, is, os).

(** What the arguments mean. *)
Definition spends (v : vin) (x : bytes * bytes * Z * Z * bytes) : Prop :=
  let '(s, a, m, p, c) := x in
  hex_decode (v_source v) = Ok s /\ zlen s = 32 /\ hex_decode (v_asset v) = Ok a /\ zlen a = 32 /\ m = v_amount v /\ m < 2 ^ 56 /\ p = v_position v /\ p < 2 ^ 56 /\
  hex_decode (v_program v) = Ok c /\ (zlen c = 22 \/ zlen c = 34).
Definition pays (w : vout) (y : Z * bytes) : Prop :=
  let '(m, p) := y in m = w_amount w /\ m < 2 ^ 56 /\ bytom_decode_segwit (w_address w) = Ok (0, p) /\ (zlen p = 20 \/ zlen p = 32).
Definition typed (vins : list vin) (vouts : list vout) : Prop :=
  Forall (fun v => 0 <= v_amount v < 2 ^ 64 /\ 0 <= v_position v < 2 ^ 64) vins /\ Forall (fun w => 0 <= w_amount w < 2 ^ 64) vouts.
Definition starts (testnet : bool) (s : list Z) : Prop := exists r, s = (if testnet then str "tm" else str "bm") ++ r.

(** ** Integers *)
Definition uv (x : Z) : bytes := match uint64_to_uvarint x with Ok b => b | _ => [] end.
Lemma uv_ok x : 0 <= x < 2 ^ 56 -> uint64_to_uvarint x = Ok (uv x) /\ is_bytes (uv x) /\ 1 <= zlen (uv x) <= 8 /\ reads rleb (uv x) x.
Proof. intros X. unfold uv. destruct (uvarint_written x) as [(_ & b & -> & B & L & R)|[? _]]; [lia|auto|lia]. Qed.
Lemma uv_inv x b : 0 <= x < 2 ^ 64 -> uint64_to_uvarint x = Ok b -> x < 2 ^ 56 /\ b = uv x.
Proof. intros X E. unfold uv. rewrite E. destruct (uvarint_written x X) as [[? _]|[_ ?]]; [auto|congruence]. Qed.
Lemma uv_small x : 0 <= x < 128 -> uv x = [x].
Proof. intros X. unfold uv, uint64_to_uvarint. cbn [put_uvarint]. replace (x <? 128) with true by lia. reflexivity. Qed.
Lemma uv_value x : 0 <= x < 2 ^ 56 -> uvarint_to_uint64 (uv x) = x.
Proof. intros X. apply uvarint_round_trip; [lia|apply uv_ok; exact X]. Qed.
(** All bytes but the last are 0x80 or more. *)
Fixpoint group (b : bytes) : bool := match b with [] => false | c :: r => if c <? 128 then match r with [] => true | _ => false end else group r end.
Lemma rleb_group b : forall x, rleb b = Some (x, []) -> group b = true.
Proof.
  induction b as [|c b IH]; intros x E; [discriminate|]. cbn [rleb] in E. cbn [group]. destruct (c <? 128); [injection E as _ ->; reflexivity|]. destruct (rleb b) as [[m r]|]; [|discriminate]. assert (r = []) by congruence. subst r. eapply IH. reflexivity.
Qed.
Lemma uv_group x : 0 <= x < 2 ^ 56 -> group (uv x) = true.
Proof. intros X. destruct (uv_ok x X) as (_ & _ & _ & R). specialize (R []). rewrite app_nil_r in R. eapply rleb_group. exact R. Qed.
Lemma scan_more_group {A} b : forall acc rest (k : bytes -> bytes -> res A), group b = true -> scan_more acc (b ++ rest) k = k (acc ++ b) rest.
Proof.
  induction b as [|c b IH]; intros acc rest k G; [discriminate|]. cbn [group] in G. cbn [app scan_more]. destruct (c <? 128); [destruct b; [reflexivity|discriminate]|]. rewrite IH by exact G. rewrite <- app_assoc. reflexivity.
Qed.
Lemma scan_var_group {A} b rest (k : bytes -> bytes -> res A) : group b = true -> scan_var (b ++ rest) k = k b rest.
Proof. intros G. unfold scan_var. destruct b as [|c b]; [discriminate|]. cbn [app]. apply (scan_more_group (c :: b) [] rest k G). Qed.

(** ** The bytes *)
Definition spent_wire (x : bytes * bytes * Z * Z * bytes) : bytes := let '(s, a, m, p, c) := x in s ++ a ++ uv m ++ uv p ++ [1; zlen c] ++ c.
Definition in_wire (x : bytes * bytes * Z * Z * bytes) (w : bytes) : bytes := 1 :: (zlen (spent_wire x) + 2) :: 1 :: zlen (spent_wire x) :: spent_wire x ++ w.
Definition prog_wire (p : bytes) : bytes := (zlen p + 2) :: 0 :: zlen p :: p.
Definition paid_wire (y : Z * bytes) : bytes := repeat 255 32 ++ uv (fst y) ++ [1] ++ prog_wire (snd y).
Definition out_wire (y : Z * bytes) : bytes := 1 :: zlen (paid_wire y) :: paid_wire y ++ [0].
Definition wire (range : Z) (xs : list (bytes * bytes * Z * Z * bytes)) (ys : list (Z * bytes)) : bytes :=
  7 :: 1 :: uv range ++ (zlen xs mod 256) :: concat (map (fun x => in_wire x [1; 0]) xs) ++ (zlen ys mod 256) :: concat (map out_wire ys).
Definition spent_ok (x : bytes * bytes * Z * Z * bytes) : Prop :=
  let '(s, a, m, p, c) := x in zlen s = 32 /\ zlen a = 32 /\ 0 <= m < 2 ^ 56 /\ 0 <= p < 2 ^ 56 /\ (zlen c = 22 \/ zlen c = 34).
Definition paid_ok (y : Z * bytes) : Prop := 0 <= fst y < 2 ^ 56 /\ (zlen (snd y) = 20 \/ zlen (snd y) = 32).
Definition mk_in (x : bytes * bytes * Z * Z * bytes) (s : option sigpub) (m : option bytes) : txin :=
  let '(src, a, amt, p, c) := x in {| i_source := src; i_position := uv p; i_asset := a; i_amount := uv amt; i_program := c; i_sig := s; i_multi := m |}.
Definition mk_out (y : Z * bytes) : txout := {| o_asset := repeat 255 32; o_program := prog_wire (snd y); o_amount := uv (fst y) |}.
Lemma spent_len x : spent_ok x -> 90 <= zlen (spent_wire x) <= 116.
Proof.
  destruct x as [[[[s a] m] p] c]. intros (Ls & La & M & P & Lc). unfold spent_wire. rewrite !zlen_app, !zlen_cons. change (zlen (@nil Z)) with 0. pose proof (uv_ok m M). pose proof (uv_ok p P). lia.
Qed.
Lemma paid_len y : paid_ok y -> 57 <= zlen (paid_wire y) <= 76.
Proof.
  destruct y as [m p]. intros (M & Lp). unfold paid_wire, prog_wire. rewrite !zlen_app, !zlen_cons. cbn [fst snd] in *. change (zlen (@nil Z)) with 0. change (zlen (repeat 255 32)) with 32. pose proof (uv_ok m M). lia.
Qed.
Lemma u8_small x : 0 <= x < 256 -> u8 x = x.
Proof. intros X. unfold u8. apply Z.mod_small. exact X. Qed.
Definition witness (s : option sigpub) (m : option bytes) : res bytes := match s, m with None, None => Ok [1; 0] | None, Some m => Ok m | Some s, _ => sigpub_bytes s end.
Lemma in_bytes_wire x s m w : spent_ok x -> witness s m = Ok w -> in_bytes (mk_in x s m) = Ok (in_wire x w).
Proof.
  intros X W. pose proof (spent_len x X) as L. destruct x as [[[[src a] amt] p] c]. destruct X as (Ls & La & M & P & Lc). unfold in_bytes, mk_in. cbn [i_source i_asset i_program i_position i_amount i_sig i_multi]. pose proof (uv_ok amt M) as (_ & _ & LM & _). pose proof (uv_ok p P) as (_ & _ & LP & _).
  rewrite Ls, La. cbn [negb Z.eqb Pos.eqb]. replace (negb (zlen c =? 22) && negb (zlen c =? 34)) with false by lia. replace (zlen (uv p) =? 0) with false by lia. replace (zlen (uv amt) =? 0) with false by lia. cbv zeta.
  unfold witness in W. rewrite W. cbn [bind]. unfold in_wire. unfold spent_wire in *. rewrite (u8_small (zlen c)) by lia. set (S := src ++ a ++ uv amt ++ uv p ++ [1; zlen c] ++ c) in *. rewrite (u8_small (zlen S)) by lia. rewrite (zlen_cons 1), (zlen_cons (zlen S)). rewrite u8_small by lia. replace (1 + (1 + zlen S)) with (zlen S + 2) by lia. reflexivity.
Qed.
Lemma out_bytes_wire y : paid_ok y -> out_bytes (mk_out y) = Ok (out_wire y).
Proof.
  intros Y. pose proof (paid_len y Y) as L. destruct Y as [M P]. unfold out_bytes, mk_out. cbn [o_amount o_asset o_program]. pose proof (uv_ok _ M) as (_ & _ & LM & _). replace (zlen (uv (fst y)) =? 0) with false by lia. change (zlen (repeat 255 32) =? 32) with true. cbn [negb]. replace (zlen (prog_wire (snd y)) =? 0) with false by (unfold prog_wire; rewrite !zlen_cons; lia). cbv zeta. unfold out_wire. fold (paid_wire y). rewrite u8_small by lia. reflexivity.
Qed.

(** ** Creation *)
Lemma new_in_iff v i : 0 <= v_amount v < 2 ^ 64 -> 0 <= v_position v < 2 ^ 64 ->
  ((exists b, new_in v = Ok i /\ in_bytes i = Ok b) <-> exists x, spends v x /\ i = mk_in x None None).
Proof.
  intros A P. split.
  - intros (b & E & Eb). unfold new_in in E. apply bind_ok in E as (s & Es & E). apply bind_ok in E as (p & Ep & E). apply bind_ok in E as (a & Ea & E). apply bind_ok in E as (m & Em & E). apply bind_ok in E as (c & Ec & E). injection E as <-.
    apply uv_inv in Ep as [Lp ->]; [|exact P]. apply uv_inv in Em as [Lm ->]; [|exact A]. exists (s, a, v_amount v, v_position v, c). split; [|reflexivity]. unfold in_bytes in Eb. cbn [i_source i_asset i_program i_position i_amount] in Eb.
    destruct (zlen s =? 32) eqn:L1; [|discriminate]. destruct (zlen a =? 32) eqn:L2; [|discriminate]. cbn [negb] in Eb. destruct (negb (zlen c =? 22) && negb (zlen c =? 34)) eqn:L3; [discriminate|]. repeat (split; try assumption); try reflexivity; lia.
  - intros ([[[[s a] m] p] c] & (Es & Ls & Ea & La & -> & Lm & -> & Lp & Ec & Lc) & ->). eexists. split; [|apply in_bytes_wire; [split; [exact Ls|]; split; [exact La|]; split; [lia|]; split; [lia|exact Lc]|reflexivity]].
    unfold new_in. rewrite Es, Ea, Ec. rewrite (proj1 (uv_ok (v_position v) ltac:(lia))), (proj1 (uv_ok (v_amount v) ltac:(lia))). reflexivity.
Qed.
Lemma new_out_iff w o : 0 <= w_amount w < 2 ^ 64 -> (new_out w = Ok o <-> exists y, pays w y /\ o = mk_out y).
Proof.
  intros A. unfold new_out, control_program. split.
  - intros E. apply bind_ok in E as (p & Ep & E). apply bind_ok in E as (m & Em & E). apply uv_inv in Em as [Lm ->]; [|exact A]. apply bind_ok in Ep as ([v q] & Eq & Ep). destruct (v =? 0) eqn:V; [|discriminate]. cbn [negb] in Ep. destruct (negb (zlen q =? 20) && negb (zlen q =? 32)) eqn:L; [discriminate|]. cbv zeta in Ep. injection Ep as <-. injection E as <-. assert (v = 0) by lia. subst v. exists (w_amount w, q). split; [repeat (split; try assumption); try reflexivity; lia|]. unfold mk_out, prog_wire. cbn [fst snd]. rewrite !zlen_cons. rewrite !u8_small by lia. do 2 f_equal. lia.
  - intros ([m p] & (-> & Lm & D & Lp) & ->). rewrite D. cbn [bind Z.eqb negb]. replace (negb (zlen p =? 20) && negb (zlen p =? 32)) with false by lia. cbv zeta. rewrite (proj1 (uv_ok (w_amount w) ltac:(lia))). cbn [bind]. unfold mk_out, prog_wire. cbn [fst snd]. rewrite !zlen_cons. rewrite !u8_small by lia. do 3 f_equal. lia.
Qed.
Lemma check_all_iff tn l : check_all tn l = Ok tt <-> Forall (fun w => starts tn (w_address w)) l.
Proof.
  assert (Q : forall w, check_prefix tn w = Ok tt <-> starts tn (w_address w)).
  { intros w. unfold check_prefix, starts. split.
    - intros E. apply bind_ok in E as (p & Ep & E). destruct (beq p (if tn then str "tm" else str "bm")) eqn:B; [|discriminate]. apply beq_eq in B. subst p. apply slice_ok in Ep as (_ & _ & a & c & -> & L & _). assert (a = []) by (destruct a; [reflexivity|rewrite zlen_cons in L; pose proof (zlen_nonneg a); lia]). subst a. exists c. reflexivity.
    - intros (r & ->). rewrite (slice_pre (if tn then str "tm" else str "bm") r) by (destruct tn; reflexivity). cbn [bind]. rewrite beq_refl. reflexivity. }
  induction l as [|w l IH]; [split; [constructor|reflexivity]|]. cbn [check_all]. split.
  - intros E. apply bind_ok in E as ([] & E1 & E2). constructor; [apply Q; exact E1|apply IH; exact E2].
  - intros F. inversion F; subst. rewrite (proj2 (Q w)) by assumption. apply IH. assumption.
Qed.
Lemma mapr_iff {A B X} (f : A -> res B) (R : A -> X -> Prop) (g : X -> B) l : (forall a b, In a l -> f a = Ok b <-> exists x, R a x /\ b = g x) ->
  forall bs, mapr f l = Ok bs <-> exists xs, Forall2 R l xs /\ bs = map g xs.
Proof.
  induction l as [|a l IH]; intros F bs.
  - cbn [mapr]. split; [intros E; injection E as <-; exists []; auto|]. intros (xs & F2 & ->). inversion F2. reflexivity.
  - cbn [mapr]. specialize (IH (fun a b I => F a b (or_intror I))). split.
    + intros E. apply bind_ok in E as (b & Eb & E). apply bind_ok in E as (t & Et & E). injection E as <-. apply F in Eb as (x & Rx & ->); [|left; reflexivity]. apply IH in Et as (xs & Rs & ->). exists (x :: xs). auto.
    + intros (xs & F2 & ->). inversion F2; subst. rewrite (proj2 (F a (g y) (or_introl eq_refl))) by eauto. cbn [bind]. rewrite (proj2 (IH (map g l'))) by eauto. reflexivity.
Qed.
Lemma forall2_zlen {A B} (R : A -> B -> Prop) l l' : Forall2 R l l' -> zlen l = zlen l'.
Proof. unfold zlen. intros F. f_equal. induction F; cbn; congruence. Qed.
Lemma spends_ok v x : 0 <= v_amount v -> 0 <= v_position v -> spends v x -> spent_ok x.
Proof. destruct x as [[[[s a] m] p] c]. intros A P (Es & Ls & Ea & La & -> & Lm & -> & Lp & Ec & Lc). unfold spent_ok. split; [exact Ls|]. split; [exact La|]. split; [lia|]. split; [lia|exact Lc]. Qed.
Lemma pays_ok w y : 0 <= w_amount w -> pays w y -> paid_ok y.
Proof. destruct y as [m p]. intros A (-> & Lm & _ & Lp). split; [cbn; lia|exact Lp]. Qed.
Theorem bytom_created_iff : forall vins vouts range testnet raw, typed vins vouts -> 0 <= range < 2 ^ 64 ->
  (create vins vouts range testnet = Ok raw <->
   vins <> [] /\ vouts <> [] /\ range < 2 ^ 56 /\ Forall (fun w => starts testnet (w_address w)) vouts /\
   exists xs ys, Forall2 spends vins xs /\ Forall2 pays vouts ys /\ raw = hex_encode (wire range xs ys)).
Proof.
  intros vins vouts range tn raw (Ti & To) R. unfold create. rewrite Forall_forall in Ti, To.
  assert (WI : forall xs, Forall2 spends vins xs -> Forall spent_ok xs).
  { intros xs F. clear -F Ti. induction F as [|v x vins xs S F IH]; [constructor|]. constructor; [eapply spends_ok; [| |exact S]; apply (Ti v); left; reflexivity|]. apply IH. intros w I. apply Ti. right. exact I. }
  assert (WO : forall ys, Forall2 pays vouts ys -> Forall paid_ok ys).
  { intros ys F. clear -F To. induction F as [|v x vins xs S F IH]; [constructor|]. constructor; [eapply pays_ok; [|exact S]; apply (To v); left; reflexivity|]. apply IH. intros w I. apply To. right. exact I. }
  assert (BI : forall xs, Forall spent_ok xs -> mapr in_bytes (map (fun x => mk_in x None None) xs) = Ok (map (fun x => in_wire x [1; 0]) xs)).
  { intros xs F. clear -F. induction F as [|x xs X F IH]; [reflexivity|]. cbn [map mapr]. rewrite (in_bytes_wire x None None [1; 0] X eq_refl). cbn [bind]. rewrite IH. reflexivity. }
  assert (BO : forall ys, Forall paid_ok ys -> mapr out_bytes (map mk_out ys) = Ok (map out_wire ys)).
  { intros xs F. clear -F. induction F as [|x xs X F IH]; [reflexivity|]. cbn [map mapr]. rewrite (out_bytes_wire x X). cbn [bind]. rewrite IH. reflexivity. }
  assert (OUT := mapr_iff new_out pays mk_out vouts (fun a b I => new_out_iff a b (To a I))).
  split.
  - intros E. apply bind_ok in E as ([] & C & E). apply check_all_iff in C. apply bind_ok in E as (t & Et & E). apply bind_ok in E as (b & Eb & E). assert (Er : raw = hex_encode b) by congruence. clear E. unfold new_tx in Et. apply bind_ok in Et as (ins & Ei & Et). apply bind_ok in Et as (outs & Eo & Et). apply bind_ok in Et as (r & Er' & Et).
    assert (N1 : vins <> []) by (intros ->; discriminate). assert (N2 : vouts <> []) by (intros ->; discriminate). split; [exact N1|]. split; [exact N2|]. apply uv_inv in Er' as [Lr ->]; [|exact R]. split; [exact Lr|]. split; [exact C|].
    assert (Ei' : mapr new_in vins = Ok ins) by (destruct vins; [contradiction|exact Ei]). assert (Eo' : mapr new_out vouts = Ok outs) by (destruct vouts; [contradiction|exact Eo]). apply OUT in Eo' as (ys & Fy & ->).
    assert (t = {| t_version := [1]; t_range := uv range; t_ins := ins; t_outs := map mk_out ys |}) by congruence. subst t. unfold tx_bytes in Eb. cbn [t_ins t_outs t_range t_version] in Eb. destruct (zlen ins =? 0) eqn:Z1; [discriminate|]. destruct (zlen (map mk_out ys) =? 0) eqn:Z2; [discriminate|]. destruct (zlen (uv range) =? 0) eqn:Z3; [discriminate|]. change (zlen [1] =? 0) with false in Eb. cbv iota in Eb. apply bind_ok in Eb as (is & Eis & Eb). apply bind_ok in Eb as (os & Eos & Eb).
    assert (Fx : exists xs, Forall2 spends vins xs /\ ins = map (fun x => mk_in x None None) xs).
    { clear -Ei' Eis Ti. revert ins is Ei' Eis. induction vins as [|v vins IH]; intros ins is Ei Eis; cbn [mapr] in Ei; [injection Ei as <-; exists []; auto|]. apply bind_ok in Ei as (i & E1 & Ei). apply bind_ok in Ei as (t & E2 & Ei). injection Ei as <-. cbn [mapr] in Eis. apply bind_ok in Eis as (b & E3 & Eis). apply bind_ok in Eis as (u & E4 & Eis). destruct (proj1 (new_in_iff v i (proj1 (Ti v (or_introl eq_refl))) (proj2 (Ti v (or_introl eq_refl))))) as (x & S & ->); [eauto|]. destruct (IH (fun w I => Ti w (or_intror I)) t u E2 E4) as (xs & F & ->). exists (x :: xs). auto. }
    destruct Fx as (xs & Fx & ->). exists xs, ys. split; [exact Fx|]. split; [exact Fy|]. rewrite (BI _ (WI _ Fx)) in Eis. rewrite (BO _ (WO _ Fy)) in Eos. assert (is = map (fun x => in_wire x [1; 0]) xs) by congruence. assert (os = map out_wire ys) by congruence. subst is os. rewrite Er. f_equal. rewrite !zlen_map in Eb. unfold wire. change (zlen xs mod 256) with (u8 (zlen xs)). change (zlen ys mod 256) with (u8 (zlen ys)). cbn [app] in Eb. congruence.
  - intros (N1 & N2 & Lr & C & xs & ys & Fx & Fy & ->). apply check_all_iff in C. rewrite C. cbn [bind]. unfold new_tx.
    assert (Ei : mapr new_in vins = Ok (map (fun x => mk_in x None None) xs)).
    { clear -Fx Ti. induction Fx as [|v x vins xs S F IH]; [reflexivity|]. cbn [mapr map]. destruct (proj2 (new_in_iff v (mk_in x None None) (proj1 (Ti v (or_introl eq_refl))) (proj2 (Ti v (or_introl eq_refl))))) as (b & E & _); [eauto|]. rewrite E. cbn [bind]. rewrite IH by (intros w I; apply Ti; right; exact I). reflexivity. }
    replace (match vins with [] => Err | _ :: _ => mapr new_in vins end) with (Ok (map (fun x => mk_in x None None) xs)) by (destruct vins; [contradiction|symmetry; exact Ei]). cbn [bind]. assert (Eo : mapr new_out vouts = Ok (map mk_out ys)) by (apply OUT; eauto). replace (match vouts with [] => Err | _ :: _ => mapr new_out vouts end) with (Ok (map mk_out ys)) by (destruct vouts; [contradiction|symmetry; exact Eo]). cbn [bind].
    pose proof (uv_ok range ltac:(lia)) as (Er & _ & Lu & _). rewrite Er. cbn [bind]. unfold tx_bytes. cbn [t_ins t_outs t_range t_version]. rewrite !zlen_map. pose proof (forall2_zlen _ _ _ Fx) as L1. pose proof (forall2_zlen _ _ _ Fy) as L2. assert (0 < zlen vins) by (destruct vins; [contradiction|rewrite zlen_cons; pose proof (zlen_nonneg vins); lia]). assert (0 < zlen vouts) by (destruct vouts; [contradiction|rewrite zlen_cons; pose proof (zlen_nonneg vouts); lia]).
    replace (zlen xs =? 0) with false by lia. replace (zlen ys =? 0) with false by lia. replace (zlen (uv range) =? 0) with false by lia. change (zlen [1] =? 0) with false. cbv iota. rewrite (BI _ (WI _ Fx)), (BO _ (WO _ Fy)). reflexivity.
Qed.

(** ** Reading back *)
Lemma reads_eq {A} (r : reader A) e e' a a' : reads r e a -> e = e' -> a = a' -> reads r e' a'.
Proof. intros R -> ->. exact R. Qed.
Lemma reads_small n : 0 <= n < 128 -> reads rleb [n] n.
Proof. intros N rest. cbn [app rleb]. replace (n <? 128) with true by lia. reflexivity. Qed.
Lemma str_read b : zlen b < 128 -> reads rstr (zlen b :: b) b.
Proof. intros L. pose proof (zlen_nonneg b). unfold rstr. change (zlen b :: b) with ([zlen b] ++ b). eapply reads_bind; [apply reads_small; lia|apply reads_take; reflexivity]. Qed.
Lemma inside_read {A} (r : reader A) b a : zlen b < 128 -> reads r b a -> reads (inside r) (zlen b :: b) a.
Proof.
  intros L R. unfold inside. eapply reads_eq; [eapply reads_bind; [apply str_read; exact L|]|apply app_nil_r|reflexivity]. rewrite (reads_whole _ _ _ R). apply reads_ret.
Qed.
Lemma list_read {A X} (r : reader A) (w : X -> bytes) (g : X -> A) (xs : list X) : zlen xs < 128 -> Forall (fun x => reads r (w x) (g x)) xs -> reads (rlist r) (zlen xs :: concat (map w xs)) (map g xs).
Proof.
  intros C F. pose proof (zlen_nonneg xs). unfold rlist. change (zlen xs :: concat (map w xs)) with ([zlen xs] ++ concat (map w xs)). eapply reads_bind; [apply reads_small; lia|]. unfold zlen. rewrite Nat2Z.id. rewrite <- (map_length g xs). apply reads_repeat. clear C H. induction F; constructor; assumption.
Qed.
Lemma spent_read x : spent_ok x -> reads rspent (spent_wire x) x.
Proof.
  destruct x as [[[[s a] m] p] c]. intros (Ls & La & M & P & Lc). unfold rspent, spent_wire. eapply reads_bind; [apply reads_take; exact Ls|]. eapply reads_bind; [apply reads_take; exact La|]. eapply reads_bind; [apply uv_ok; exact M|]. eapply reads_bind; [apply uv_ok; exact P|]. change ([1; zlen c] ++ c) with ([1] ++ (zlen c :: c)). eapply reads_bind; [apply reads_exact|]. eapply reads_eq; [eapply reads_bind; [apply (str_read c); lia|apply reads_ret]|apply app_nil_r|reflexivity].
Qed.
Lemma in_read x w args : spent_ok x -> reads (inside (rlist rstr)) w args -> reads rin (in_wire x w) (x, args).
Proof.
  intros X W. pose proof (spent_len x X) as L. unfold rin, in_wire. change (1 :: zlen (spent_wire x) + 2 :: 1 :: zlen (spent_wire x) :: spent_wire x ++ w) with ([1] ++ (zlen (spent_wire x) + 2 :: 1 :: zlen (spent_wire x) :: spent_wire x) ++ w). eapply reads_bind; [apply reads_exact|]. replace (zlen (spent_wire x) + 2) with (zlen (1 :: zlen (spent_wire x) :: spent_wire x)) by (rewrite !zlen_cons; lia).
  eapply reads_bind; [apply inside_read; [rewrite !zlen_cons; lia|]|].
  - change (1 :: zlen (spent_wire x) :: spent_wire x) with ([1] ++ (zlen (spent_wire x) :: spent_wire x)). eapply reads_bind; [apply reads_exact|]. apply inside_read; [lia|apply spent_read; exact X].
  - eapply reads_eq; [eapply reads_bind; [exact W|apply reads_ret]|apply app_nil_r|reflexivity].
Qed.
Lemma out_read y : paid_ok y -> reads rout (out_wire y) (repeat 255 32, fst y, 0 :: zlen (snd y) :: snd y).
Proof.
  intros Y. pose proof (paid_len y Y) as L. destruct Y as [M P]. unfold rout, out_wire. change (1 :: zlen (paid_wire y) :: paid_wire y ++ [0]) with ([1] ++ (zlen (paid_wire y) :: paid_wire y) ++ [0]). eapply reads_bind; [apply reads_exact|]. eapply reads_bind.
  - apply inside_read; [lia|]. unfold paid_wire. eapply reads_bind; [apply reads_take; reflexivity|]. eapply reads_bind; [apply uv_ok; exact M|]. eapply reads_bind; [apply reads_exact|]. unfold prog_wire. replace (zlen (snd y) + 2) with (zlen (0 :: zlen (snd y) :: snd y)) by (rewrite !zlen_cons; lia). eapply reads_eq; [eapply reads_bind; [apply (str_read (0 :: zlen (snd y) :: snd y)); rewrite !zlen_cons; lia|apply reads_ret]|apply app_nil_r|reflexivity].
  - eapply reads_eq; [eapply reads_bind; [apply reads_exact|apply reads_ret]|apply app_nil_r|reflexivity].
Qed.
Lemma no_args : reads (inside (rlist rstr)) [1; 0] [].
Proof. change [1; 0] with (zlen [0] :: [0]). apply inside_read; [reflexivity|]. intros rest. reflexivity. Qed.
(** The created bytes, as the chain reads them: exactly the inputs, without arguments, and the outputs. *)
Theorem bytom_created_read : forall vins vouts range testnet raw, typed vins vouts -> 0 <= range < 2 ^ 64 -> zlen vins < 128 -> zlen vouts < 128 ->
  create vins vouts range testnet = Ok raw ->
  exists b xs ys, raw = hex_encode b /\ Forall2 spends vins xs /\ Forall2 pays vouts ys /\
    rwhole rtx b = Some (1, range, map (fun x => (x, [])) xs, map (fun y => (repeat 255 32, fst y, 0 :: zlen (snd y) :: snd y)) ys).
Proof.
  intros vins vouts range tn raw T R Li Lo E. apply bytom_created_iff in E as (_ & _ & Lr & _ & xs & ys & Fx & Fy & ->); [|assumption..]. exists (wire range xs ys), xs, ys. split; [reflexivity|]. split; [exact Fx|]. split; [exact Fy|]. apply reads_whole. destruct T as [Ti To]. rewrite (forall2_zlen _ _ _ Fx) in Li. rewrite (forall2_zlen _ _ _ Fy) in Lo. pose proof (zlen_nonneg xs). pose proof (zlen_nonneg ys).
  assert (WI : Forall spent_ok xs). { clear -Fx Ti. induction Fx as [|v x vins xs S F IH]; [constructor|]. inversion Ti; subst. constructor; [eapply spends_ok; [| |exact S]; lia|apply IH; assumption]. }
  assert (WO : Forall paid_ok ys). { clear -Fy To. induction Fy as [|v x vins xs S F IH]; [constructor|]. inversion To; subst. constructor; [eapply pays_ok; [|exact S]; lia|apply IH; assumption]. }
  unfold rtx, wire. rewrite !Z.mod_small by lia. change (7 :: 1 :: uv range ++ zlen xs :: concat (map (fun x => in_wire x [1; 0]) xs) ++ zlen ys :: concat (map out_wire ys)) with ([7] ++ [1] ++ uv range ++ (zlen xs :: concat (map (fun x => in_wire x [1; 0]) xs)) ++ (zlen ys :: concat (map out_wire ys))).
  eapply reads_bind; [apply reads_exact|]. eapply reads_bind; [apply (reads_small 1); lia|]. eapply reads_bind; [apply uv_ok; lia|]. eapply reads_bind; [apply (list_read rin (fun x => in_wire x [1; 0]) (fun x => (x, [])) xs); [lia|]|].
  - eapply Forall_impl; [|exact WI]. intros x X. apply in_read; [exact X|apply no_args].
  - eapply reads_eq; [eapply reads_bind; [apply (list_read rout out_wire (fun y => (repeat 255 32, fst y, 0 :: zlen (snd y) :: snd y)) ys); [lia|eapply Forall_impl; [|exact WO]; exact out_read]|apply reads_ret]|apply app_nil_r|reflexivity].
Qed.

(** *** DecodeRawTransaction *)
Definition position (x : bytes * bytes * Z * Z * bytes) : Z := let '(_, _, _, p, _) := x in p.
Lemma commitment_decoded x : spent_ok x ->
  decode_commitment (1 :: zlen (spent_wire x) :: spent_wire x) = if position x <? 128 then let '(s, a, m, p, c) := x in Ok (s, a, uv m, uv p, c) else Err.
Proof.
  intros X. pose proof (spent_len x X) as L. unfold decode_commitment. cbn [need1 Z.eqb Pos.eqb negb]. rewrite !zlen_cons. rewrite u8_small by lia. replace (zlen (spent_wire x) =? 1 + (1 + zlen (spent_wire x)) - 2) with true by lia. cbn [negb]. clear L. destruct x as [[[[s a] m] p] c]. destruct X as (Ls & La & M & P & Lc). unfold spent_wire, position. rewrite need_app by exact Ls. rewrite need_app by exact La. rewrite scan_var_group by (apply uv_group; exact M).
  destruct (p <? 128) eqn:E.
  - rewrite (uv_small p) by lia. cbn [app need1 Z.eqb Pos.eqb negb]. replace (zlen c =? 0) with false by lia. rewrite Z.eqb_refl. reflexivity.
  - pose proof (uv_group p P) as G. pose proof (uv_ok p P) as (_ & _ & _ & R). specialize (R []). rewrite app_nil_r in R. destruct (uv p) as [|b0 [|b1 r]]; [discriminate| |].
    + cbn [rleb] in R. cbn [group] in G. destruct (b0 <? 128) eqn:Q; [|discriminate]. assert (b0 = p) by congruence. lia.
    + cbn [group] in G. destruct (b0 <? 128); [discriminate|]. cbn [app need1]. destruct (b1 =? 1) eqn:Q; [|reflexivity]. assert (b1 = 1) by lia. subst b1. cbn [negb]. destruct r as [|? ?]; [|discriminate]. cbn [app need1 Z.eqb]. rewrite zlen_cons. replace (1 + zlen c =? 1) with false by lia. reflexivity.
Qed.
(** What follows the commitment of an input. *)
Definition decode_wit (mk : option sigpub -> option bytes -> txin) (rest : bytes) : res (txin * bytes) :=
  need1 rest (fun w rest =>
  if w =? 0x01 then need1 rest (fun z rest => if negb (z =? 0) then Err else Ok (mk None None, rest))
  else if w =? 0 then Err
  else match rest with
       | a :: b :: after =>
           if (a =? 0x02) && (b =? 0x40) then
             need 64 after (fun sig rest =>
             need1 rest (fun c rest =>
             if negb (c =? 32) then Err else
             need 32 rest (fun pub rest =>
             Ok (mk (Some {| p_sig := Some sig; p_pub := pub |}) None, rest))))
           else if (a =? 0x01) && (b =? 0x03) then
             need (w + 1) rest (fun m rest => Ok (mk None (Some m), rest))
           else Err
       | _ => Err
       end).
Lemma in_decoded x w : spent_ok x -> decode_in (in_wire x w) = if position x <? 128 then decode_wit (mk_in x) w else Err.
Proof.
  intros X. pose proof (spent_len x X) as L. unfold decode_in, in_wire. cbn [app need1 Z.eqb Pos.eqb negb]. replace (zlen (spent_wire x) + 2 =? 0) with false by lia. change (1 :: zlen (spent_wire x) :: spent_wire x ++ w) with ((1 :: zlen (spent_wire x) :: spent_wire x) ++ w). rewrite need_app by (rewrite !zlen_cons; lia). rewrite commitment_decoded by exact X. destruct (position x <? 128); [|reflexivity]. destruct x as [[[[src a] amt] p] c]. reflexivity.
Qed.
Lemma in_wire_app x w rest : in_wire x w ++ rest = in_wire x (w ++ rest).
Proof. unfold in_wire. cbn [app]. rewrite <- app_assoc. reflexivity. Qed.
Lemma out_decoded y rest : paid_ok y -> decode_out (out_wire y ++ rest) = Ok (mk_out y, rest).
Proof.
  intros Y. pose proof (paid_len y Y) as L. unfold decode_out, out_wire. cbn [app need1 Z.eqb Pos.eqb negb]. replace (zlen (paid_wire y) =? 0) with false by lia. rewrite <- app_assoc. rewrite need_app by reflexivity.
  unfold decode_output_script, paid_wire. rewrite need_app by reflexivity. destruct Y as [M P]. rewrite scan_var_group by (apply uv_group; exact M). unfold prog_wire. cbn [app need1 Z.eqb Pos.eqb negb]. replace (zlen (snd y) + 2 =? 0) with false by lia. rewrite <- (app_nil_r (0 :: zlen (snd y) :: snd y)). rewrite need_app by (rewrite !zlen_cons; lia). change (zlen (@nil Z) =? 0) with true. cbn [negb bind need1 Z.eqb]. unfold mk_out, prog_wire. rewrite ?app_nil_r. reflexivity.
Qed.
Lemma readn_ok {A X} (read : bytes -> res (A * bytes)) (w : X -> bytes) (g : X -> A) l rest : Forall (fun x => forall r, read (w x ++ r) = Ok (g x, r)) l -> readn (length l) read (concat (map w l) ++ rest) = Ok (map g l, rest).
Proof.
  induction 1 as [|x l E F IH]; [reflexivity|]. cbn [length readn map concat]. rewrite <- app_assoc, E. cbn [bind]. rewrite IH. reflexivity.
Qed.
(** A list of n elements of which only n mod 256 are read. *)
Lemma readn_some {A X} (read : bytes -> res (A * bytes)) (w : X -> bytes) (g : X -> A) l rest n : (n <= length l)%nat -> Forall (fun x => forall r, read (w x ++ r) = Ok (g x, r)) l ->
  readn n read (concat (map w l) ++ rest) = Ok (map g (firstn n l), concat (map w (skipn n l)) ++ rest).
Proof.
  intros L F. rewrite <- (firstn_skipn n l) at 1. rewrite map_app, concat_app, <- app_assoc. replace n with (length (firstn n l)) at 1 by (rewrite firstn_length; lia). apply readn_ok. rewrite <- (firstn_skipn n l) in F. apply Forall_app in F. apply F.
Qed.
Lemma readn_err {A X} (read : bytes -> res (A * bytes)) (w : X -> bytes) (g : X -> A) l1 x l2 rest n : (length l1 < n)%nat -> Forall (fun x => forall r, read (w x ++ r) = Ok (g x, r)) l1 -> (forall r, read (w x ++ r) = Err) ->
  readn n read (concat (map w (l1 ++ x :: l2)) ++ rest) = Err.
Proof.
  intros L F E. revert n L. induction F as [|y l1 Ey F IH]; intros n L; destruct n as [|n]; [lia| |lia|].
  - cbn [app map concat readn]. rewrite <- app_assoc, E. reflexivity.
  - cbn [app map concat readn]. rewrite <- app_assoc, Ey. cbn [bind]. rewrite IH by (cbn [length] in L; lia). reflexivity.
Qed.
Definition readable (xs : list (bytes * bytes * Z * Z * bytes)) (ys : list (Z * bytes)) : Prop := zlen xs < 256 /\ zlen ys < 256 /\ Forall (fun x => position x < 128) xs.
Lemma first_bad (xs : list (bytes * bytes * Z * Z * bytes)) : Forall (fun x => position x < 128) xs \/ exists l1 x l2, xs = l1 ++ x :: l2 /\ Forall (fun x => position x < 128) l1 /\ 128 <= position x.
Proof.
  induction xs as [|x xs IH]; [left; constructor|]. destruct (Z_lt_dec (position x) 128) as [P|P].
  - destruct IH as [F|(l1 & y & l2 & -> & F & Q)]; [left; constructor; assumption|]. right. exists (x :: l1), y, l2. split; [reflexivity|]. split; [constructor; assumption|exact Q].
  - right. exists [], x, xs. split; [reflexivity|]. split; [constructor|lia].
Qed.
Lemma unsigned_decoded x r : spent_ok x -> position x < 128 -> decode_in (in_wire x [1; 0] ++ r) = Ok (mk_in x None None, r).
Proof. intros X P. rewrite in_wire_app, in_decoded by exact X. replace (position x <? 128) with true by lia. reflexivity. Qed.
Lemma wire_decoded range xs ys : 0 <= range < 2 ^ 56 -> xs <> [] -> ys <> [] -> Forall spent_ok xs -> Forall paid_ok ys ->
  (readable xs ys /\ decode_tx (wire range xs ys) = Ok {| t_version := [1]; t_range := uv range; t_ins := map (fun x => mk_in x None None) xs; t_outs := map mk_out ys |}) \/
  (~ readable xs ys /\ decode_tx (wire range xs ys) = Err).
Proof.
  intros R N1 N2 Wx Wy. unfold decode_tx, wire. cbn [need1 Z.eqb Pos.eqb negb scan_version Z.ltb Z.compare Pos.compare Pos.compare_cont]. rewrite scan_var_group by (apply uv_group; exact R). cbn [need1].
  assert (P1 : 0 < zlen xs) by (destruct xs; [contradiction|rewrite zlen_cons; pose proof (zlen_nonneg xs); lia]). assert (P2 : 0 < zlen ys) by (destruct ys; [contradiction|rewrite zlen_cons; pose proof (zlen_nonneg ys); lia]).
  pose proof (Z.mod_pos_bound (zlen xs) 256 ltac:(lia)) as B1. pose proof (Z.mod_pos_bound (zlen ys) 256 ltac:(lia)) as B2. pose proof (Z.mod_le (zlen xs) 256 ltac:(lia) ltac:(lia)) as M1. pose proof (Z.mod_le (zlen ys) 256 ltac:(lia) ltac:(lia)) as M2.
  destruct (zlen xs mod 256 <=? 0) eqn:Z1. { right. split; [|reflexivity]. intros (L & _). rewrite Z.mod_small in Z1 by lia. lia. }
  set (rest := zlen ys mod 256 :: concat (map out_wire ys)).
  destruct (first_bad xs) as [Fp|(l1 & x & l2 & -> & Fp & Bx)].
  - assert (Fr : Forall (fun x => forall r, decode_in (in_wire x [1; 0] ++ r) = Ok (mk_in x None None, r)) xs). { clear -Wx Fp. induction Wx; [constructor|]. inversion Fp; subst. constructor; [intros r; apply unsigned_decoded; assumption|auto]. }
    rewrite (readn_some decode_in _ _ xs rest (Z.to_nat (zlen xs mod 256)) ltac:(unfold zlen in *; lia) Fr). cbn [bind].
    destruct (Z_lt_dec (zlen xs) 256) as [Lx|Lx].
    + rewrite Z.mod_small by lia. replace (Z.to_nat (zlen xs)) with (length xs) by (unfold zlen; lia). rewrite firstn_all, skipn_all. unfold rest. cbn [map concat app need1]. destruct (zlen ys mod 256 =? 0) eqn:Z2. { right. split; [|reflexivity]. intros (_ & L & _). rewrite Z.mod_small in Z2 by lia. lia. }
      assert (Fo : Forall (fun y => forall r, decode_out (out_wire y ++ r) = Ok (mk_out y, r)) ys) by (eapply Forall_impl; [|exact Wy]; intros y Y r; apply out_decoded; exact Y).
      rewrite <- (app_nil_r (concat (map out_wire ys))). rewrite (readn_some decode_out _ _ ys [] (Z.to_nat (zlen ys mod 256)) ltac:(unfold zlen in *; lia) Fo). cbn [bind]. rewrite app_nil_r.
      destruct (Z_lt_dec (zlen ys) 256) as [Ly|Ly].
      * left. split; [repeat (split; try assumption)|]. rewrite Z.mod_small by lia. replace (Z.to_nat (zlen ys)) with (length ys) by (unfold zlen; lia). rewrite firstn_all, skipn_all. reflexivity.
      * right. split; [intros (_ & ? & _); lia|]. destruct (skipn (Z.to_nat (zlen ys mod 256)) ys) as [|y r] eqn:S; [apply (f_equal (@length _)) in S; rewrite skipn_length in S; unfold zlen in *; cbn [length] in S; lia|]. cbn [map concat]. unfold out_wire at 1. cbn [app]. rewrite zlen_cons. set (q := zlen _) at 1. pose proof (zlen_nonneg (zlen (paid_wire y) :: (paid_wire y ++ [0]) ++ concat (map out_wire r))). fold q in H. replace (1 + q =? 0) with false by lia. reflexivity.
    + right. split; [intros (? & _); lia|]. destruct (skipn (Z.to_nat (zlen xs mod 256)) xs) as [|x r] eqn:S; [apply (f_equal (@length _)) in S; rewrite skipn_length in S; unfold zlen in *; cbn [length] in S; lia|].
      assert (Xx : spent_ok x) by (rewrite <- (firstn_skipn (Z.to_nat (zlen xs mod 256)) xs), S in Wx; apply Forall_app in Wx as [_ Wx]; inversion Wx; assumption). pose proof (spent_len x Xx). cbn [map concat]. unfold in_wire at 1. cbn [app need1 Z.eqb]. change (Z.to_nat 1) with 1%nat. cbn [readn]. unfold decode_out at 1. cbn [need1]. replace (zlen (spent_wire x) + 2 =? 1) with false by lia. reflexivity.
  - right. split. { intros (_ & _ & F). apply Forall_app in F as [_ F]. inversion F; subst. lia. }
    assert (Wl : Forall spent_ok l1 /\ spent_ok x) by (apply Forall_app in Wx as [? Wx]; inversion Wx; auto). destruct Wl as [Wl X].
    assert (Fr : Forall (fun x => forall r, decode_in (in_wire x [1; 0] ++ r) = Ok (mk_in x None None, r)) l1). { clear -Wl Fp. induction Wl; [constructor|]. inversion Fp; subst. constructor; [intros r; apply unsigned_decoded; assumption|auto]. }
    destruct (Z_lt_dec (zlen l1) (zlen (l1 ++ x :: l2) mod 256)) as [Q|Q].
    + rewrite (readn_err decode_in _ (fun x => mk_in x None None)); [reflexivity|unfold zlen in *; lia|exact Fr|]. intros r. rewrite in_wire_app, in_decoded by exact X. replace (position x <? 128) with false by lia. reflexivity.
    + rewrite map_app, concat_app, <- app_assoc. rewrite (readn_some decode_in _ _ l1 _ (Z.to_nat (zlen (l1 ++ x :: l2) mod 256)) ltac:(unfold zlen in *; lia) Fr). cbn [bind].
      assert (S : exists z r, spent_ok z /\ concat (map (fun x => in_wire x [1; 0]) (skipn (Z.to_nat (zlen (l1 ++ x :: l2) mod 256)) l1)) ++ concat (map (fun x => in_wire x [1; 0]) (x :: l2)) ++ rest = in_wire z r).
      { destruct (skipn (Z.to_nat (zlen (l1 ++ x :: l2) mod 256)) l1) as [|z r] eqn:S; [exists x|exists z]; eexists; (split; [|cbn [map concat app]; rewrite <- ?app_assoc, in_wire_app; reflexivity]); [exact X|]. rewrite <- (firstn_skipn (Z.to_nat (zlen (l1 ++ x :: l2) mod 256)) l1), S in Wl. apply Forall_app in Wl as [_ Wl]. inversion Wl; assumption. }
      destruct S as (z & r & Xz & ->). pose proof (spent_len z Xz). unfold in_wire. cbn [app need1 Z.eqb]. change (Z.to_nat 1) with 1%nat. cbn [readn]. unfold decode_out at 1. cbn [need1]. replace (zlen (spent_wire z) + 2 =? 1) with false by lia. reflexivity.
Qed.
(** The decoder and the created bytes: either everything comes back, or it is an error; nothing in between. *)
Theorem bytom_created_decoded : forall vins vouts range testnet raw, typed vins vouts -> 0 <= range < 2 ^ 64 ->
  create vins vouts range testnet = Ok raw ->
  exists b, raw = hex_encode b /\
    ((zlen vins < 256 /\ zlen vouts < 256 /\ Forall (fun v => v_position v < 128) vins /\
      exists t, decode_tx b = Ok t /\ uvarint_to_uint64 (t_version t) = 1 /\ uvarint_to_uint64 (t_range t) = range /\
        Forall2 (fun v i => hex_decode (v_source v) = Ok (i_source i) /\ hex_decode (v_asset v) = Ok (i_asset i) /\ hex_decode (v_program v) = Ok (i_program i) /\
          uvarint_to_uint64 (i_position i) = v_position v /\ uvarint_to_uint64 (i_amount i) = v_amount v /\ i_sig i = None /\ i_multi i = None) vins (t_ins t) /\
        Forall2 (fun w o => o_asset o = repeat 255 32 /\ uvarint_to_uint64 (o_amount o) = w_amount w /\
          exists p, bytom_decode_segwit (w_address w) = Ok (0, p) /\ o_program o = (zlen p + 2) :: 0 :: zlen p :: p) vouts (t_outs t)) \/
     (~ (zlen vins < 256 /\ zlen vouts < 256 /\ Forall (fun v => v_position v < 128) vins) /\ decode_tx b = Err)).
Proof.
  intros vins vouts range tn raw T R E. apply bytom_created_iff in E as (N1 & N2 & Lr & _ & xs & ys & Fx & Fy & ->); [|assumption..]. exists (wire range xs ys). split; [reflexivity|]. destruct T as [Ti To].
  assert (WI : Forall spent_ok xs). { clear -Fx Ti. induction Fx as [|v x vins xs S F IH]; [constructor|]. inversion Ti; subst. constructor; [eapply spends_ok; [| |exact S]; lia|apply IH; assumption]. }
  assert (WO : Forall paid_ok ys). { clear -Fy To. induction Fy as [|v x vins xs S F IH]; [constructor|]. inversion To; subst. constructor; [eapply pays_ok; [|exact S]; lia|apply IH; assumption]. }
  assert (PP : Forall (fun v => v_position v < 128) vins <-> Forall (fun x => position x < 128) xs).
  { clear -Fx. induction Fx as [|v x vins xs S F IH]; [split; constructor|]. assert (Q : position x = v_position v) by (destruct x as [[[[s a] m] p] c]; cbn [position]; apply S). split; intros G; inversion G; subst; constructor; try (rewrite <- ?Q; lia); apply IH; assumption. }
  pose proof (forall2_zlen _ _ _ Fx) as L1. pose proof (forall2_zlen _ _ _ Fy) as L2.
  destruct (wire_decoded range xs ys) as [[(A & B & C) D]|[C D]]; [lia|intros ->; inversion Fx; subst; contradiction|intros ->; inversion Fy; subst; contradiction|exact WI|exact WO| |].
  - left. split; [lia|]. split; [lia|]. split; [apply PP; exact C|]. eexists. split; [exact D|]. cbn [t_version t_range t_ins t_outs]. split; [reflexivity|]. split; [apply uv_value; lia|]. split.
    + clear -Fx WI. induction Fx as [|v x vins xs S F IH]; [constructor|]. inversion WI; subst. cbn [map]. constructor; [|apply IH; assumption]. destruct x as [[[[s a] m] p] c]. destruct H1 as (_ & _ & M & P & _). destruct S as (Es & _ & Ea & _ & -> & _ & -> & _ & Ec & _). cbn [mk_in i_source i_asset i_program i_position i_amount i_sig i_multi]. rewrite !uv_value by assumption. auto 10.
    + clear -Fy WO. induction Fy as [|v x vins xs S F IH]; [constructor|]. inversion WO; subst. cbn [map]. constructor; [|apply IH; assumption]. destruct x as [m p]. destruct H1 as (M & _). destruct S as (-> & _ & Dp & _). cbn [mk_out o_asset o_amount o_program fst snd] in *. rewrite uv_value by assumption. split; [reflexivity|]. split; [reflexivity|]. exists p. auto.
  - right. split; [|exact D]. intros (A & B & P). apply C. split; [lia|]. split; [lia|]. apply PP. exact P.
Qed.
Print Assumptions bytom_created_iff.
Print Assumptions bytom_created_read.
Print Assumptions bytom_created_decoded.
