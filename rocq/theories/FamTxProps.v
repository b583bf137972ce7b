(** C105-C109: transactions created by the packages derived from btcTransaction. *)
From Coq Require Import String ZArith List Bool Lia ZifyBool ZifyNat.
From Verif Require Import Go GoFacts GoFacts2 Rd Base58Model Base58Spec Base58Props Base58CheckModel Base58CheckSpec Base58CheckProofs Base58CheckProps
  Digits58 AddressCheckProps Bech32Model BtcModel BtcSpec BtcProofs BtcTxProofs BtcTxProps SigDerProps HyperProps CodecModel OmniModel FamModel FamProofs Toy.
From Verif Require OmniProps.
Import ListNotations.
Open Scope Z_scope.
Ltac Zify.zify_post_hook ::= idtac.

(** ** Specification *)
(** A hex text that is the serialisation of inputs spending [vins] and of outputs satisfying [P]. *)
Definition created (version : Z) (P : list spec_out -> Prop) (vins : list vin) (lt : Z) (r : bool) (hexs : list Z) : Prop :=
  vins <> [] /\ exists ins outs, Forall2 (spends lt r) vins ins /\ P outs /\ hexs = hex_encode (consensus_tx version ins outs lt).
(** It is read back to the same inputs and outputs; with anything after it, it is refused. *)
Definition read_back (version : Z) (P : list spec_out -> Prop) (vins : list vin) (lt : Z) (r : bool) (hexs : list Z) (segwitOn : bool) : Prop :=
  exists b t ins outs, hex_decode hexs = Ok b /\ decode_v version b segwitOn = Ok t /\ Forall2 (spends lt r) vins ins /\ P outs /\ shows version ins outs lt t /\
    forall extra, extra <> [] -> decode_v version (b ++ extra) segwitOn = Err.
(** One output per request. *)
Definition all_paid (H : bytes -> bytes) (ap : addr_prefix) (third : bool) (tail : bytes) (vouts : list vout) (outs : list spec_out) : Prop :=
  vouts <> [] /\ Forall2 (base58_pays H ap third tail) vouts outs.
(** The same, then an output of amount 0 with the payload's script, which is not empty. *)
Definition paid_and_said (H : bytes -> bytes) (ap : addr_prefix) (o : omni) (vouts : list vout) (outs : list spec_out) : Prop :=
  exists front script, all_paid H ap false [] vouts front /\ get_payload bitcoin_al H o = Ok script /\ script <> [] /\ outs = front ++ [{| s_amount := 0; s_lock := script |}].
(** The payload's script fits into an output. *)
Definition payload_fits (H : bytes -> bytes) (o : omni) : Prop := forall s, get_payload bitcoin_al H o = Ok s -> is_bytes s /\ zlen s <= 252.

(** ** Lemmas *)
Definition said (H : bytes -> bytes) (ap : addr_prefix) (o : omni) (vouts : list vout) (so : list spec_out) : Prop :=
  exists front script, all_paid H ap false [] vouts front /\ get_payload bitcoin_al H o = Ok script /\ so = front ++ [{| s_amount := 0; s_lock := script |}].
Lemma create_created version outs vins lt r (P P' : list spec_out -> Prop) : Forall vin_typed vins -> zlen vins <= 252 ->
  (forall l, outs = Ok l <-> exists so, l = map out_of so /\ P so) -> (forall so, P so -> holds so) ->
  (forall so, P' so <-> P so /\ Forall (fun o => s_lock o <> []) so) ->
  forall hexs, create_v version outs vins lt r = Ok hexs <-> created version P' vins lt r hexs.
Proof.
  intros TI Ni O W Q hexs. rewrite (create_v_iff version outs vins lt r P hexs TI Ni O W). unfold created. split.
  - intros (N & ins & so & Fi & Ps & Ne & E). split; [exact N|]. exists ins, so. split; [exact Fi|]. split; [apply Q; auto|exact E].
  - intros (N & ins & so & Fi & Ps & E). split; [exact N|]. apply Q in Ps as [Ps Ne]. exists ins, so. auto.
Qed.
Lemma created_read version vins lt r (P P' : list spec_out -> Prop) hexs sw : 0 <= version < 2 ^ 32 -> 0 <= lt < 2 ^ 32 -> Forall vin_typed vins -> zlen vins <= 252 ->
  (forall so, P so -> holds so) -> (forall so, P' so <-> P so /\ Forall (fun o => s_lock o <> []) so) ->
  created version P' vins lt r hexs -> read_back version P' vins lt r hexs sw.
Proof.
  intros Hv Hl TI Ni W Q (N & ins & so & Fi & Ps & ->). assert (Ps' := Ps). apply Q in Ps as [Ps Ne].
  destruct (created_v_reads version vins ins so lt r sw Hv Hl TI N Ni Fi (W _ Ps) Ne) as (A & B & C).
  exists (consensus_tx version ins so lt), (tx_of version ins so lt), ins, so. split; [exact A|]. split; [rewrite <- (app_nil_r (consensus_tx _ _ _ _)); apply C|]. split; [exact Fi|]. split; [exact Ps'|]. split; [exact B|].
  intros extra Nx. rewrite C. destruct extra; [contradiction|reflexivity].
Qed.
Lemma pays_facts H ap third tail vouts outs : Forall vout_typed vouts -> is_bytes tail -> zlen tail <= 227 -> Forall2 (base58_pays H ap third tail) vouts outs ->
  zlen outs = zlen vouts /\ Forall (fun s => 0 <= s_amount s < 2 ^ 64 /\ is_bytes (s_lock s) /\ zlen (s_lock s) <= 252) outs /\ Forall (fun o => s_lock o <> []) outs.
Proof.
  intros FT Bt Lt F. split; [exact (Forall2_len _ _ _ F)|]. clear - FT Bt Lt F. induction F as [|v s vs ss (A & lock & S1 & S2) F IH]; [split; constructor|].
  apply Forall_cons_iff in FT as [[_ T] FT]. destruct (IH FT) as [I1 I2]. destruct (base58_script_facts _ _ _ _ _ S1) as [B L]. split; constructor; auto.
  - rewrite A, S2. split; [exact T|]. split; [apply is_bytes_app; split; assumption|rewrite zlen_app; lia].
  - rewrite S2. destruct lock; [change (zlen (@nil Z)) with 0 in L; lia|discriminate].
Qed.
Lemma all_paid_holds H ap third tail vouts outs : Forall vout_typed vouts -> is_bytes tail -> zlen tail <= 227 -> zlen vouts <= 252 -> all_paid H ap third tail vouts outs -> holds outs.
Proof. intros FT Bt Lt Lo [N F]. destruct (pays_facts _ _ _ _ _ _ FT Bt Lt F) as (A & B & _). pose proof (zlen_pos _ N). split; [lia|exact B]. Qed.
Lemma all_paid_nonempty H ap third tail vouts outs : Forall vout_typed vouts -> is_bytes tail -> zlen tail <= 227 ->
  (all_paid H ap third tail vouts outs <-> all_paid H ap third tail vouts outs /\ Forall (fun o => s_lock o <> []) outs).
Proof. intros FT Bt Lt. split; [|tauto]. intros A. split; [exact A|]. destruct A as [_ F]. apply (pays_facts _ _ _ _ _ _ FT Bt Lt F). Qed.
Lemma simple_out H ap third v : hash_ok H -> prefixes_ok ap -> vout_typed v -> forall o,
  (s <- base58_script H ap third (v_addr v) ;; Ok (paying (v_amount v) s)) = Ok o <-> exists s, o = out_of s /\ base58_pays H ap third [] v s.
Proof.
  intros HH HP [Ba _] o. split.
  - intros E. apply bind_ok in E as (s & Es & E). apply base58_script_iff in Es; try assumption. injection E as <-. exists {| s_amount := v_amount v; s_lock := s |}. split; [reflexivity|]. split; [reflexivity|]. exists s. rewrite app_nil_r. auto.
  - intros (s & -> & A & lock & S1 & S2). rewrite (proj2 (base58_script_iff H ap third (v_addr v) lock HH HP Ba) S1). cbn [bind]. unfold paying, out_of. rewrite A, S2, app_nil_r. reflexivity.
Qed.
Lemma fork_outs_iff H ap vouts : hash_ok H -> prefixes_ok ap -> Forall vout_typed vouts -> forall l, fork_outs H ap vouts = Ok l <-> exists so, l = map out_of so /\ all_paid H ap true [] vouts so.
Proof.
  intros HH HP FT l. unfold fork_outs, all_paid. destruct vouts as [|v vs].
  - change (zlen (@nil vout) =? 0) with true. cbv iota. split; [discriminate|intros (so & _ & N & _); contradiction].
  - replace (zlen (v :: vs) =? 0) with false by (rewrite zlen_cons; pose proof (zlen_nonneg vs); lia). rewrite (outs_of _ (base58_pays H ap true []) vout_typed _ FT (fun v o Tv => simple_out H ap true v HH HP Tv o)).
    split; intros (so & E & F); exists so; [split; [exact E|split; [discriminate|exact F]]|split; [exact E|apply F]].
Qed.
(** Outputs, then the payload. *)
Lemma with_payload H ap o vouts outs : (forall l, outs = Ok l <-> exists so, l = map out_of so /\ all_paid H ap false [] vouts so) ->
  forall l, (f <- outs ;; p <- get_payload bitcoin_al H o ;; Ok (f ++ [paying 0 p])) = Ok l <->
    exists so, l = map out_of so /\ said H ap o vouts so.
Proof.
  intros O l. split.
  - intros E. apply bind_ok in E as (f & Ef & E). apply bind_ok in E as (p & Ep & E). apply O in Ef as (so & -> & A). exists (so ++ [{| s_amount := 0; s_lock := p |}]). split; [rewrite map_app; injection E as <-; reflexivity|]. exists so, p. auto.
  - intros (so & -> & front & p & A & Ep & ->). rewrite (proj2 (O (map out_of front))) by eauto. cbn [bind]. rewrite Ep. cbn [bind]. rewrite map_app. reflexivity.
Qed.
Lemma payload_holds H ap o vouts so : Forall vout_typed vouts -> zlen vouts <= 251 -> payload_fits H o ->
  said H ap o vouts so -> holds so.
Proof.
  intros FT Lo PF (front & p & A & Ep & ->). destruct (PF p Ep) as [Bp Lp]. assert (N := proj1 A). destruct (all_paid_holds H ap false [] vouts front FT ltac:(constructor) ltac:(cbv; congruence) ltac:(lia) A) as [L F].
  destruct A as [_ F2]. pose proof (Forall2_len _ _ _ F2) as Le. split; [rewrite zlen_app; change (zlen [_]) with 1; lia|]. apply Forall_app. split; [exact F|]. constructor; [|constructor]. cbn [s_amount s_lock]. split; [split; [lia|reflexivity]|auto].
Qed.
Lemma payload_nonempty H ap o vouts so : Forall vout_typed vouts ->
  (paid_and_said H ap o vouts so <-> said H ap o vouts so /\ Forall (fun o => s_lock o <> []) so).
Proof.
  intros FT. split.
  - intros (front & p & A & Ep & Np & ->). split; [exists front, p; auto|]. apply Forall_app. split; [|constructor; [exact Np|constructor]]. destruct A as [_ F]. apply (pays_facts H ap false [] vouts front FT ltac:(constructor) ltac:(cbv; congruence) F).
  - intros [(front & p & A & Ep & ->) F]. exists front, p. apply Forall_app in F as [_ F]. inversion F as [|? ? Np]. auto.
Qed.

(** ** C105: Bitcoin Cash and Bitcoin SV *)
(** Creation succeeds exactly when there are inputs and outputs, every id is 32 bytes of hex and every address is a base58check
    address with one of the three prefixes; the result is the consensus serialisation, version 1. *)
Theorem fork_create_iff : forall H ap vins vouts lt r hexs, hash_ok H -> prefixes_ok ap -> Forall vin_typed vins -> Forall vout_typed vouts -> zlen vins <= 252 -> zlen vouts <= 252 ->
  (create_fork H vins vouts lt r ap = Ok hexs <-> created 1 (all_paid H ap true [] vouts) vins lt r hexs).
Proof.
  intros H ap vins vouts lt r hexs HH HP TI TO Ni No. apply create_created with (P := all_paid H ap true [] vouts); try assumption.
  - apply fork_outs_iff; assumption.
  - intros so A. eapply all_paid_holds; [exact TO|constructor| |exact No|exact A]. cbv; congruence.
  - intros so. apply all_paid_nonempty; [exact TO|constructor|cbv; congruence].
Qed.
Theorem fork_created_read : forall H ap vins vouts lt r hexs segwitOn, hash_ok H -> prefixes_ok ap -> 0 <= lt < 2 ^ 32 -> Forall vin_typed vins -> Forall vout_typed vouts -> zlen vins <= 252 -> zlen vouts <= 252 ->
  create_fork H vins vouts lt r ap = Ok hexs -> read_back 1 (all_paid H ap true [] vouts) vins lt r hexs segwitOn.
Proof.
  intros H ap vins vouts lt r hexs sw HH HP Hl TI TO Ni No E. apply fork_create_iff in E; try assumption.
  apply (created_read 1 vins lt r (all_paid H ap true [] vouts)); try assumption; [cbv; intuition congruence| |].
  - intros so A. eapply all_paid_holds; [exact TO|constructor| |exact No|exact A]. cbv; congruence.
  - intros so. apply all_paid_nonempty; [exact TO|constructor|cbv; congruence].
Qed.
(** The Omni variant: addresses with the third prefix are refused, the payload comes last. *)
Theorem fork_omni_create_iff : forall H ap vins vouts o lt r hexs, hash_ok H -> prefixes_ok ap -> Forall vin_typed vins -> Forall vout_typed vouts -> zlen vins <= 252 -> zlen vouts <= 251 -> payload_fits H o ->
  (create_fork_omni H vins vouts o lt r ap = Ok hexs <-> created 1 (paid_and_said H ap o vouts) vins lt r hexs).
Proof.
  intros H ap vins vouts o lt r hexs HH HP TI TO Ni No PF. unfold create_fork_omni. eapply create_created; try assumption.
  - intros l. unfold fork_omni_outs. rewrite <- (with_payload H ap o vouts (if zlen vouts =? 0 then Err else mapr (fun v => s <- base58_script H ap false (v_addr v) ;; Ok (paying (v_amount v) s)) vouts)).
    + destruct (zlen vouts =? 0); reflexivity.
    + intros k. unfold all_paid. destruct vouts as [|v vs].
      * change (zlen (@nil vout) =? 0) with true. cbv iota. split; [discriminate|intros (so & _ & N & _); contradiction].
      * replace (zlen (v :: vs) =? 0) with false by (rewrite zlen_cons; pose proof (zlen_nonneg vs); lia). rewrite (outs_of _ (base58_pays H ap false []) vout_typed _ TO (fun v o Tv => simple_out H ap false v HH HP Tv o)).
        split; intros (so & E & F); exists so; [split; [exact E|split; [discriminate|exact F]]|split; [exact E|apply F]].
  - intros so. apply payload_holds; assumption.
  - intros so. apply payload_nonempty; assumption.
Qed.

(** ** Addresses of the packages with one output per address *)
(** A base58check address of the profile never begins with its bech32 prefix. *)
Lemma coin_ok_facts H ap : hash_ok H -> coin_ok ap = true -> prefixes_ok ap /\ forall a s, base58_script_for H ap false a s -> ~ begins (p_bech32 ap) a.
Proof.
  intros HH C. unfold coin_ok in C. destruct (p_bech32 ap) as [|c q] eqn:Eb; [discriminate|]. cbn [forallb] in C.
  assert (G : forall p, forallb (fun x => (0 <=? x) && (x <=? 255)) p = true -> is_bytes p).
  { intros p F. apply Forall_forall. intros x Hx. rewrite forallb_forall in F. specialize (F x Hx). unfold is_byte. lia. }
  repeat (apply andb_prop in C as [C ?]).
  repeat match goal with X : _ && _ = true |- _ => apply andb_prop in X as [? ?] end.
  assert (HP : prefixes_ok ap) by (repeat split; apply G; assumption). split; [exact HP|].
  intros a s (p & h & Bh & L & N & D).
  assert (Pp : p = p_p2pkh ap \/ p = p_p2wpkh ap) by (destruct D as [[-> _]|(_ & [->|[T _]] & _)]; [auto|auto|discriminate]).
  assert (Np : p <> []) by (intros ->; destruct Pp as [Q|Q]; rewrite <- Q in *; discriminate).
  apply (first_not_ok H c p h a HH Np); [destruct Pp as [-> | ->]; apply HP|exact Bh|exact L| |exact N]. destruct Pp as [-> | ->]; match goal with |- first_not c ?p = true => destruct p; [contradiction|assumption] end.
Qed.
(** What the loop without continue makes of an address: [G] are the addresses with one output. *)
Definition one_output (H : bytes -> bytes) (ap : addr_prefix) (G : list Z -> bytes -> Prop) : Prop :=
  forall a lock, is_bytes a -> (G a lock <-> base58_script_for H ap false a lock /\ ~ begins (p_bech32 ap) a) /\
    (base58_script_for H ap false a lock -> begins (p_bech32 ap) a -> forall h, bech32_decode a <> Ok h).
Definition gives (G : list Z -> bytes -> Prop) (tail : bytes) (v : vout) (o : spec_out) : Prop := s_amount o = v_amount v /\ exists lock, G (v_addr v) lock /\ s_lock o = lock ++ tail.
Lemma both_outs_iff H ap G tail v : hash_ok H -> prefixes_ok ap -> one_output H ap G -> vout_typed v ->
  forall l, both_outs H ap tail v = Ok l <-> exists s, l = [out_of s] /\ gives G tail v s.
Proof.
  intros HH HP O [Ba _] l. unfold both_outs. split.
  - intros E. apply bind_ok in E as (f & Ef & E). apply bind_ok in E as (s & Es & E). apply base58_script_iff in Es; try assumption. destruct (O (v_addr v) s Ba) as [I1 I2].
    destruct (is_prefix (p_bech32 ap) (v_addr v)) eqn:Q.
    + apply is_prefix_begins in Q. apply bind_ok in Ef as (h & Eh & _). exfalso. exact (I2 Es Q h Eh).
    + injection Ef as <-. exists {| s_amount := v_amount v; s_lock := s ++ tail |}. split; [injection E as <-; reflexivity|]. split; [reflexivity|]. exists s. split; [|reflexivity]. apply I1. split; [exact Es|]. intros B. apply is_prefix_begins in B. congruence.
  - intros (s & -> & A & lock & g & S2). destruct (O (v_addr v) lock Ba) as [I1 _]. apply I1 in g as [S1 NB]. destruct (is_prefix (p_bech32 ap) (v_addr v)) eqn:Q; [apply is_prefix_begins in Q; contradiction|]. cbn [bind].
    rewrite (proj2 (base58_script_iff H ap false (v_addr v) lock HH HP Ba) S1). cbn [bind app]. unfold paying, out_of. rewrite A, S2. reflexivity.
Qed.
Lemma concat_outs_of {A} (f : A -> res (list txout)) (P : A -> spec_out -> Prop) (D : A -> Prop) l : Forall D l ->
  (forall x, D x -> forall o, f x = Ok o <-> exists s, o = [out_of s] /\ P x s) ->
  forall r, (o <- mapr f l ;; Ok (concat o)) = Ok r <-> exists so, r = map out_of so /\ Forall2 P l so.
Proof.
  intros FD Q. induction FD as [|x l Dx FD IH]; intros r; cbn [mapr bind concat].
  - split; [intros E; exists []; split; [injection E as <-; reflexivity|constructor]|intros (so & -> & F); inversion F; reflexivity].
  - split.
    + intros E. apply bind_ok in E as (t & Et & E). apply bind_ok in Et as (o & Eo & Et). apply bind_ok in Et as (u & Eu & Et). apply Q in Eo as (s & -> & Ps); [|exact Dx].
      destruct (proj1 (IH (concat u))) as (so & Es & F); [rewrite Eu; reflexivity|]. assert (t = [out_of s] :: u) by congruence. subst t. cbn [concat app] in E. exists (s :: so). split; [cbn [map]; rewrite <- Es; congruence|constructor; assumption].
    + intros (so & -> & F). inversion F as [|? s ? ss Ps F']; subst. rewrite (proj2 (Q x Dx [out_of s])) by eauto. cbn [bind]. assert (E : (o <- mapr f l ;; Ok (concat o)) = Ok (map out_of ss)) by (apply IH; eauto). apply bind_ok in E as (u & Eu & E). rewrite Eu. cbn [bind concat app map]. assert (Ec : concat u = map out_of ss) by congruence. rewrite Ec. reflexivity.
Qed.
Lemma coin_one_output H ap : hash_ok H -> coin_ok ap = true -> one_output H ap (base58_script_for H ap false).
Proof. intros HH C a lock Ba. destruct (coin_ok_facts H ap HH C) as [_ N]. split; [split; [intros S1; split; [exact S1|eapply N; exact S1]|tauto]|]. intros S1 B. destruct (N _ _ S1 B). Qed.
Lemma plain_outs_iff H ap G vouts : hash_ok H -> prefixes_ok ap -> one_output H ap G -> Forall vout_typed vouts ->
  forall l, plain_outs H ap vouts = Ok l <-> exists so, l = map out_of so /\ vouts <> [] /\ Forall2 (gives G []) vouts so.
Proof.
  intros HH HP O FT l. unfold plain_outs. destruct vouts as [|v vs].
  - change (zlen (@nil vout) =? 0) with true. cbv iota. split; [discriminate|intros (so & _ & N & _); contradiction].
  - replace (zlen (v :: vs) =? 0) with false by (rewrite zlen_cons; pose proof (zlen_nonneg vs); lia). rewrite (concat_outs_of _ (gives G []) vout_typed _ FT (fun v Tv o => both_outs_iff H ap G [] v HH HP O Tv o)).
    split; intros (so & E & F); exists so; [split; [exact E|split; [discriminate|exact F]]|split; [exact E|apply F]].
Qed.

(** ** C106: Omni *)
Definition omni_coins : list addr_prefix := [btc_main; btc_test].
Lemma coin_in ap (l : list addr_prefix) : forallb coin_ok l = true -> In ap l -> coin_ok ap = true.
Proof. intros F I. rewrite forallb_forall in F. apply F. exact I. Qed.
Lemma omni_coin ap : In ap omni_coins -> coin_ok ap = true.
Proof. apply coin_in. vm_compute. reflexivity. Qed.
Lemma omni_outs_created H ap o vouts : hash_ok H -> coin_ok ap = true -> Forall vout_typed vouts -> forall l,
  omni_outs H ap o vouts = Ok l <-> exists so, l = map out_of so /\ said H ap o vouts so.
Proof.
  intros HH C TO l. destruct (coin_ok_facts H ap HH C) as [HP _]. apply with_payload. intros k. apply (plain_outs_iff H ap _ vouts HH HP (coin_one_output H ap HH C) TO).
Qed.
(** Creation succeeds exactly when every address is a base58check address with the key or the script prefix, and the
    payload is not empty; version 2, one output per address, the payload last. *)
Theorem omni_create_iff : forall H ap vins vouts o lt r hexs, hash_ok H -> In ap omni_coins -> Forall vin_typed vins -> Forall vout_typed vouts -> zlen vins <= 252 -> zlen vouts <= 251 -> payload_fits H o ->
  (create_omni H vins vouts o lt r ap = Ok hexs <-> created 2 (paid_and_said H ap o vouts) vins lt r hexs).
Proof.
  intros H ap vins vouts o lt r hexs HH Hin TI TO Ni No PF. apply omni_coin in Hin. unfold create_omni. eapply create_created; try assumption.
  - apply omni_outs_created; assumption.
  - intros so. apply payload_holds; assumption.
  - intros so. apply payload_nonempty; assumption.
Qed.
Theorem omni_created_read : forall H ap vins vouts o lt r hexs segwitOn, hash_ok H -> In ap omni_coins -> 0 <= lt < 2 ^ 32 -> Forall vin_typed vins -> Forall vout_typed vouts -> zlen vins <= 252 -> zlen vouts <= 251 -> payload_fits H o ->
  create_omni H vins vouts o lt r ap = Ok hexs -> read_back 2 (paid_and_said H ap o vouts) vins lt r hexs segwitOn.
Proof.
  intros H ap vins vouts o lt r hexs sw HH Hin Hl TI TO Ni No PF E. apply omni_create_iff in E; try assumption.
  apply (created_read 2 vins lt r (said H ap o vouts)); try assumption; [cbv; intuition congruence| |].
  - intros so. apply payload_holds; assumption.
  - intros so. apply payload_nonempty; assumption.
Qed.
(** No transaction is created if some address begins with the bech32 prefix: "bc1..." is never paid. *)
Theorem omni_bech32_refused : forall H ap vins vouts o lt r v, hash_ok H -> In ap omni_coins -> Forall vin_typed vins -> Forall vout_typed vouts -> zlen vins <= 252 -> zlen vouts <= 251 -> payload_fits H o ->
  In v vouts -> begins (p_bech32 ap) (v_addr v) -> forall hexs, create_omni H vins vouts o lt r ap <> Ok hexs.
Proof.
  intros H ap vins vouts o lt r v HH Hin TI TO Ni No PF Iv B hexs E. apply omni_create_iff in E as (_ & ins & outs & _ & (front & s & [_ F] & _) & _); try assumption.
  apply omni_coin in Hin. destruct (coin_ok_facts H ap HH Hin) as [_ N]. clear - F Iv B N. induction F as [|x o vs os (_ & lock & S1 & _) F IH]; [destruct Iv|]. destruct Iv as [-> |Iv]; [exact (N _ _ S1 B)|auto].
Qed.
(** A well-formed Omni request: the message read from the last output's script is the one asked for. *)
Lemma put_be_bytes n x : is_bytes (put_be n x).
Proof. unfold put_be. apply be_bytes_is_bytes. Qed.
Theorem omni_created_says : forall H ap vins vouts o pre h lt r hexs, hash_ok H -> In ap omni_coins -> Forall vin_typed vins -> Forall vout_typed vouts -> zlen vins <= 252 -> zlen vouts <= 251 ->
  OmniProps.in_range o -> In (o_type o) [0; 4; 22; 28; 53; 55; 56; 70; 71; 72; 185; 186] -> payload_fits H o ->
  (o_type o = 55 \/ o_type o = 56 -> zlen (o_memo o) <= 54 /\ ~ In 0 (o_memo o)) ->
  (o_type o = 185 \/ o_type o = 186 -> decode_check bitcoin_al H (o_address o) = Ok (pre, h) /\ zlen (pre ++ h) <= 55) ->
  (create_omni H vins vouts o lt r ap = Ok hexs <->
   exists ins front script, vins <> [] /\ Forall2 (spends lt r) vins ins /\ all_paid H ap false [] vouts front /\ get_payload bitcoin_al H o = Ok script /\
     OmniProps.omni_script script = OmniProps.meaning o (pre ++ h) /\ hexs = hex_encode (consensus_tx 2 ins (front ++ [{| s_amount := 0; s_lock := script |}]) lt)).
Proof.
  intros H ap vins vouts o pre h lt r hexs HH Hin TI TO Ni No R T PF M D. destruct (OmniProps.omni_script_says bitcoin_al H o R T M pre h D) as (s & Es & Ns & Q).
  rewrite (omni_create_iff H ap vins vouts o lt r hexs HH Hin TI TO Ni No PF). split.
  - intros (N & ins & outs & Fi & (front & s' & A & Es' & _ & ->) & ->). assert (s' = s) by congruence. subst s'. exists ins, front, s. auto 8.
  - intros (ins & front & s' & N & Fi & A & Es' & _ & ->). assert (s' = s) by congruence. subst s'. split; [exact N|]. exists ins, (front ++ [{| s_amount := 0; s_lock := s |}]). split; [exact Fi|]. split; [|reflexivity]. exists front, s. auto.
Qed.

(** ** C107: HyperCash (hcTransaction) *)
(** The text of a 26-byte block of a two-byte prefix begins with [t]. *)
Definition first_two (t : list Z) (prefix : bytes) : bool :=
  let lo := be_num prefix * 256 ^ 24 in let hi := (be_num prefix + 1) * 256 ^ 24 - 1 in
  existsb (fun k => if (58 ^ (Z.of_nat k - 1) <=? lo) && (hi <? 58 ^ Z.of_nat k) then
      forallb (fun q => beq (map (symbol bitcoin_rs) (digits58 2 q)) t) (zrange (lo / 58 ^ Z.of_nat (k - 2)) (hi / 58 ^ Z.of_nat (k - 2))) else false) (List.seq 30 12).
Lemma first_two_ok H t p h s : hash_ok H -> hd 1 p <> 0 -> p <> [] -> is_bytes p -> is_bytes h -> length h = 20%nat -> first_two t p = true ->
  is_base58_of bitcoin_rs (checked H (p ++ h)) s -> begins t s.
Proof.
  intros HH Nz Np Hp Hh L C N.
  assert (Fb : is_bytes (p ++ h)) by (apply is_bytes_app; auto).
  assert (Hd : hd 1 (checked H (p ++ h)) = hd 1 p) by (destruct p; [contradiction|reflexivity]).
  unfold first_two in C. apply existsb_exists in C as (k & Kk & C). apply List.in_seq in Kk. destruct (_ && _) eqn:C2 in C; [|discriminate].
  assert (B : be_num p * 256 ^ 24 <= be_num (checked H (p ++ h)) <= (be_num p + 1) * 256 ^ 24 - 1).
  { unfold checked. rewrite <- app_assoc, be_num_app. destruct (HH _ Fb) as [Hc Lc].
    assert (Bx : is_bytes (h ++ firstn 4 (H (p ++ h)))) by (apply is_bytes_app; split; [exact Hh|apply firstn_bytes, Hc]).
    assert (Lx : zlen (h ++ firstn 4 (H (p ++ h))) = 24) by (rewrite zlen_app; unfold zlen in *; rewrite firstn_length; lia).
    pose proof (be_num_bound _ Bx) as Bd. rewrite Lx in *. set (P := 256 ^ 24) in *. nia. }
  remember (be_num p * 256 ^ 24) as lo eqn:Elo. clear Elo. remember ((be_num p + 1) * 256 ^ 24 - 1) as hi eqn:Ehi. clear Ehi.
  destruct (base58_lead bitcoin_rs _ s k 2 lo hi N) as (x & r' & Q & Es); try lia.
  - apply checked_bytes; assumption.
  - rewrite forallb_forall in C. specialize (C x (in_zrange _ _ _ Q)). apply beq_eq in C. exists r'. rewrite Es, C. reflexivity.
Qed.
Lemma scan_flags s : forall i lo up n p lo' up' p', scan s i lo up n p = Ok (lo', up', p') -> (lo = true -> lo' = true) /\ (up = true -> up' = true).
Proof.
  induction s as [|c s IH]; intros i lo up n p lo' up' p' E; cbn [scan] in E; [injection E as <- <- <-; auto|].
  destruct ((97 <=? c) && (c <=? 122)); [apply IH in E as [A B]; split; auto|]. destruct ((65 <=? c) && (c <=? 90)); [apply IH in E as [A B]; split; auto|].
  destruct ((c =? 48) || _); [eapply IH; exact E|]. destruct (c =? 49); [|discriminate]. destruct (n || _ || _); [discriminate|]. eapply IH; exact E.
Qed.
(** A capital letter followed by a small one is never bech32. *)
Lemma mixed_refused a b r h : 65 <= a <= 90 -> 97 <= b <= 122 -> bech32_decode (a :: b :: r) <> Ok h.
Proof.
  intros A B E. unfold bech32_decode in E. apply bind_ok in E as ([[lo up] ps] & Es & E). cbn [scan] in Es.
  replace ((97 <=? a) && (a <=? 122)) with false in Es by lia. replace ((65 <=? a) && (a <=? 90)) with true in Es by lia. replace ((97 <=? b) && (b <=? 122)) with true in Es by lia.
  apply scan_flags in Es as [F1 F2]. rewrite F1, F2 in E by reflexivity. discriminate.
Qed.
Definition hc_coins : list addr_prefix := [hc_main; hc_test].
(** An address with the script prefix of the profile, and its script. *)
Definition hc_script_for (H : bytes -> bytes) (ap : addr_prefix) (address : list Z) (lock : bytes) : Prop :=
  exists h, is_bytes h /\ length h = 20%nat /\ is_base58_of bitcoin_rs (checked H (p_p2wpkh ap ++ h)) address /\ lock = p2sh_script h.
Definition hc_ok (ap : addr_prefix) : bool :=
  first_two (p_bech32 ap) (p_p2pkh ap) && first_not (hd 0 (p_bech32 ap)) (p_p2wpkh ap) && (zlen (p_bech32 ap) =? 2) && (65 <=? nth 0 (p_bech32 ap) 0) && (nth 0 (p_bech32 ap) 0 <=? 90) && (97 <=? nth 1 (p_bech32 ap) 0) && (nth 1 (p_bech32 ap) 0 <=? 122)
  && negb (hd 1 (p_p2pkh ap) =? 0) && negb (beq (p_p2pkh ap) []) && negb (beq (p_p2wpkh ap) []) && negb (beq (p_p2wpkh ap) (p_p2pkh ap)) && forallb (fun x => (0 <=? x) && (x <=? 255)) (p_p2pkh ap ++ p_p2wpkh ap ++ p_p2sh ap).
Lemma hc_coins_ok : forallb hc_ok hc_coins = true.
Proof. vm_compute. reflexivity. Qed.
Lemma hc_facts H ap : hash_ok H -> In ap hc_coins -> prefixes_ok ap /\ one_output H ap (hc_script_for H ap).
Proof.
  intros HH Hin. pose proof hc_coins_ok as C. rewrite forallb_forall in C. specialize (C ap Hin). unfold hc_ok in C.
  repeat (apply andb_prop in C as [C ?]). rewrite forallb_forall in *.
  assert (HP : prefixes_ok ap).
  { assert (G : is_bytes (p_p2pkh ap ++ p_p2wpkh ap ++ p_p2sh ap)) by (apply Forall_forall; intros x Hx; match goal with X : forall x, In x _ -> _ |- _ => specialize (X x Hx) end; unfold is_byte; lia).
    apply is_bytes_app in G as [G1 G]. apply is_bytes_app in G as [G2 G3]. repeat split; assumption. }
  split; [exact HP|]. destruct HP as (P1 & P2 & P3).
  destruct (p_bech32 ap) as [|c1 [|c2 [|c3 rest]]] eqn:Eb; try (exfalso; match goal with X : (zlen _ =? 2) = true |- _ => rewrite ?zlen_cons in X; try (change (zlen (@nil Z)) with 0 in X); try (pose proof (zlen_nonneg rest)); lia end).
  cbn [nth hd] in *.
  assert (N1 : p_p2pkh ap <> []) by (intros Q; rewrite Q in *; discriminate). assert (N2 : p_p2wpkh ap <> []) by (intros Q; rewrite Q in *; discriminate).
  assert (N3 : p_p2wpkh ap <> p_p2pkh ap). { intros Q. match goal with X : negb (beq (p_p2wpkh ap) (p_p2pkh ap)) = true |- _ => rewrite Q, beq_refl' in X; discriminate end. }
  assert (K1 : forall a h, is_bytes h -> length h = 20%nat -> is_base58_of bitcoin_rs (checked H (p_p2pkh ap ++ h)) a -> begins [c1; c2] a).
  { intros a h Bh L N. apply (first_two_ok H _ (p_p2pkh ap) h); try assumption. lia. }
  assert (K2 : forall a h, is_bytes h -> length h = 20%nat -> is_base58_of bitcoin_rs (checked H (p_p2wpkh ap ++ h)) a -> ~ begins [c1; c2] a).
  { intros a h Bh L N. apply (first_not_ok H c1 (p_p2wpkh ap) h); assumption. }
  intros a lock Ba. rewrite Eb. split; [split|].
  - intros (h & Bh & L & N & ->). split; [|exact (K2 a h Bh L N)]. exists (p_p2wpkh ap), h. auto 10.
  - intros [(p & h & Bh & L & N & [[-> _]|(_ & [->|[T _]] & ->)]) NB]; [destruct (NB (K1 a h Bh L N))| |discriminate]. exists h. auto.
  - intros _ [rr ->] h. cbn [app]. apply mixed_refused; lia.
Qed.
Definition hc_paid (H : bytes -> bytes) (ap : addr_prefix) (vouts : list vout) (outs : list spec_out) : Prop :=
  vouts <> [] /\ Forall2 (fun v o => s_amount o = v_amount v /\ hc_script_for H ap (v_addr v) (s_lock o)) vouts outs.
Lemma hc_gives H ap vouts so : Forall2 (gives (hc_script_for H ap) []) vouts so <-> Forall2 (fun v o => s_amount o = v_amount v /\ hc_script_for H ap (v_addr v) (s_lock o)) vouts so.
Proof.
  split; intros F; induction F as [|v o vs os Q F IH]; constructor; auto.
  - destruct Q as (A & lock & G & E). rewrite app_nil_r in E. rewrite E. auto.
  - destruct Q as (A & G). split; [exact A|]. exists (s_lock o). rewrite app_nil_r. auto.
Qed.
(** Creation succeeds exactly when every address has the script prefix; each output pays the script-hash script. *)
Theorem hc_create_iff : forall H ap vins vouts lt r hexs, hash_ok H -> In ap hc_coins -> Forall vin_typed vins -> Forall vout_typed vouts -> zlen vins <= 252 -> zlen vouts <= 252 ->
  (create_hc H vins vouts lt r ap = Ok hexs <-> created 2 (hc_paid H ap vouts) vins lt r hexs).
Proof.
  intros H ap vins vouts lt r hexs HH Hin TI TO Ni No. destruct (hc_facts H ap HH Hin) as [HP O].
  assert (W : forall so, hc_paid H ap vouts so -> holds so /\ Forall (fun o => s_lock o <> []) so).
  { intros so [N F]. pose proof (Forall2_len _ _ _ F) as Le. pose proof (zlen_pos _ N).
    assert (X : Forall (fun s => (0 <= s_amount s < 2 ^ 64 /\ is_bytes (s_lock s) /\ zlen (s_lock s) <= 252) /\ s_lock s <> []) so).
    { clear - F TO. induction F as [|v o vs os (A & h & Bh & L & _ & E) F IH]; constructor; apply Forall_cons_iff in TO as [[_ T] TO]; auto. rewrite A, E. split; [|discriminate].
      split; [exact T|]. rewrite p2sh_len by exact L. split; [|lia]. unfold p2sh_script. apply is_bytes_app. split; [repeat constructor; lia|]. apply is_bytes_app. split; [exact Bh|repeat constructor; lia]. }
    split; [split; [lia|]|]; eapply Forall_impl; try exact X; cbn; tauto. }
  apply create_created with (P := hc_paid H ap vouts); try assumption.
  - intros l. rewrite (plain_outs_iff H ap _ vouts HH HP O TO). unfold hc_paid. split; intros (so & E & N & F); exists so; (split; [exact E|]; split; [exact N|]; apply hc_gives; exact F).
  - intros so Q. apply W, Q.
  - intros so. split; [|tauto]. intros Q. split; [exact Q|apply W, Q].
Qed.
(** So the package cannot pay to a key-hash address of its own profile: those begin with "Hs" ("Ts" on the test net). *)
Theorem hc_own_addresses_refused : forall H ap vins vouts lt r v h, hash_ok H -> In ap hc_coins -> Forall vin_typed vins -> Forall vout_typed vouts -> zlen vins <= 252 -> zlen vouts <= 252 ->
  In v vouts -> is_bytes h -> length h = 20%nat -> is_base58_of bitcoin_rs (checked H (p_p2pkh ap ++ h)) (v_addr v) -> forall hexs, create_hc H vins vouts lt r ap <> Ok hexs.
Proof.
  intros H ap vins vouts lt r v h HH Hin TI TO Ni No Iv Bh L N hexs E. apply hc_create_iff in E as (_ & ins & outs & _ & [_ F] & _); try assumption.
  destruct (hc_facts H ap HH Hin) as [HP O]. assert (Q : exists lock, hc_script_for H ap (v_addr v) lock).
  { clear - F Iv. induction F as [|x o vs os (_ & G) F IH]; [destruct Iv|]. destruct Iv as [-> |Iv]; eauto. }
  destruct Q as [lock G]. assert (Ba : is_bytes (v_addr v)) by (rewrite Forall_forall in TO; apply TO; exact Iv). apply (O (v_addr v) lock Ba) in G as [S1 NB].
  assert (S2 : base58_script_for H ap false (v_addr v) (p2pkh_script h)) by (exists (p_p2pkh ap), h; auto 8). pose proof (base58_script_unique _ _ _ _ _ _ HH HP Ba S1 S2) as ->.
  assert (G : hc_script_for H ap (v_addr v) (p2pkh_script h)) by (apply (O (v_addr v) _ Ba); auto). destruct G as (h' & _ & _ & _ & Q). discriminate Q.
Qed.

(** ** C108: Coinexchain (cxcTransaction) *)
Definition cxc_coins : list addr_prefix := [btc_main; btc_test; bch_main; bch_test; ltc_main; ltc_test].
Lemma cxc_coin ap : In ap cxc_coins -> coin_ok ap = true.
Proof. apply coin_in. exact coins_ok. Qed.
Theorem cxc_create_iff : forall H ap vins vouts lt r hexs, hash_ok H -> In ap cxc_coins -> Forall vin_typed vins -> Forall vout_typed vouts -> zlen vins <= 252 -> zlen vouts <= 252 ->
  (create_cxc H vins vouts lt r ap = Ok hexs <-> created 1 (all_paid H ap false [] vouts) vins lt r hexs).
Proof.
  intros H ap vins vouts lt r hexs HH Hin TI TO Ni No. apply cxc_coin in Hin. destruct (coin_ok_facts H ap HH Hin) as [HP _]. apply create_created with (P := all_paid H ap false [] vouts); try assumption.
  - intros l. apply (plain_outs_iff H ap _ vouts HH HP (coin_one_output H ap HH Hin) TO).
  - intros so A. eapply all_paid_holds; [exact TO|constructor| |exact No|exact A]. cbv; congruence.
  - intros so. apply all_paid_nonempty; [exact TO|constructor|cbv; congruence].
Qed.
(** The transfer of an asset: amount 0; the address's script, then a push of "spkq", the asset's id (the hex text read backwards)
    and the amount, which OP_DROP takes off the stack. *)
Definition transfers (H : bytes -> bytes) (ap : addr_prefix) (a : asset) (o : spec_out) : Prop :=
  s_amount o = 0 /\ exists lock id, base58_script_for H ap false (a_addr a) lock /\ hex_decode (a_txid a) = Ok (rev id) /\
    s_lock o = lock ++ (12 + zlen id) :: str "spkq" ++ id ++ le_bytes 8 (a_amount a) ++ [0x75].
Definition asset_typed (a : asset) : Prop := is_bytes (a_addr a) /\ 0 <= a_amount a < 2 ^ 64 /\ zlen (a_txid a) <= 400.
Lemma asset_payload_iff a p : asset_payload a = Ok p <-> exists id, hex_decode (a_txid a) = Ok (rev id) /\ p = str "spkq" ++ id ++ le_bytes 8 (a_amount a).
Proof.
  unfold asset_payload. rewrite reverse_hex_dec. split.
  - intros E. destruct (hex_decode (a_txid a)) as [b| |]; try discriminate. cbn [bind] in E. exists (rev b). rewrite rev_involutive. split; [reflexivity|]. injection E as <-. reflexivity.
  - intros (id & -> & ->). cbn [bind]. rewrite rev_involutive. reflexivity.
Qed.
Lemma id_len a id : asset_typed a -> hex_decode (a_txid a) = Ok (rev id) -> is_bytes id /\ zlen id <= 200.
Proof.
  intros (_ & _ & L) E. apply hex_decode_bytes in E as [B Le]. rewrite rev_length in Le. split; [rewrite <- (rev_involutive id); apply Forall_rev; exact B|unfold zlen in *; lia].
Qed.
Lemma asset_outs_iff H ap : hash_ok H -> coin_ok ap = true -> forall a, asset_typed a -> forall l, asset_outs H ap a = Ok l <-> exists s, l = [out_of s] /\ transfers H ap a s.
Proof.
  intros HH C a T l. destruct (coin_ok_facts H ap HH C) as [HP NB]. destruct T as (Ba & Ta). unfold asset_outs.
  assert (PL : forall id, zlen id <= 200 -> u8 (zlen (str "spkq" ++ id ++ le_bytes 8 (a_amount a))) = 12 + zlen id).
  { intros id L. unfold u8. rewrite !zlen_app, zlen_le_bytes. change (zlen (str "spkq")) with 4. pose proof (zlen_nonneg id). rewrite Z.mod_small by lia. lia. }
  split.
  - intros E. apply bind_ok in E as (f & Ef & E). apply bind_ok in E as (s & Es & E). apply bind_ok in E as (p & Ep & E). apply base58_script_iff in Es; try assumption.
    assert (f = []). { destruct (is_prefix (p_bech32 ap) (a_addr a)) eqn:Q; [apply is_prefix_begins in Q; destruct (NB _ _ Es Q)|congruence]. } subst f. clear Ef.
    apply asset_payload_iff in Ep as (id & Eid & ->). destruct (id_len a id (conj Ba Ta) Eid) as [_ Lid]. rewrite PL in E by exact Lid.
    exists {| s_amount := 0; s_lock := s ++ (12 + zlen id) :: str "spkq" ++ id ++ le_bytes 8 (a_amount a) ++ [0x75] |}. split.
    + injection E as <-. unfold paying, out_of. cbn [s_amount s_lock app]. rewrite <- !app_assoc. reflexivity.
    + split; [reflexivity|]. exists s, id. auto.
  - intros (s & -> & A & lock & id & S1 & Eid & E). destruct (is_prefix (p_bech32 ap) (a_addr a)) eqn:Q; [apply is_prefix_begins in Q; destruct (NB _ _ S1 Q)|]. cbn [bind].
    rewrite (proj2 (base58_script_iff H ap false (a_addr a) lock HH HP Ba) S1). cbn [bind]. rewrite (proj2 (asset_payload_iff a _) (ex_intro _ id (conj Eid eq_refl))). cbn [bind app].
    destruct (id_len a id (conj Ba Ta) Eid) as [_ Lid]. rewrite PL by exact Lid. unfold paying, out_of. rewrite A, E. rewrite <- !app_assoc. reflexivity.
Qed.
(** One output per transfer, then the change. *)
Definition transferred (H : bytes -> bytes) (ap : addr_prefix) (tos : list asset) (change : vout) (outs : list spec_out) : Prop :=
  exists front back, Forall2 (transfers H ap) tos front /\ base58_pays H ap false [] change back /\ outs = front ++ [back].
Lemma transfers_facts H ap tos front : Forall asset_typed tos -> Forall2 (transfers H ap) tos front ->
  Forall (fun s => (0 <= s_amount s < 2 ^ 64 /\ is_bytes (s_lock s) /\ zlen (s_lock s) <= 252) /\ s_lock s <> []) front.
Proof.
  intros FT F. induction F as [|a o l os (A & lock & id & S1 & Eid & E) F IH]; [constructor|]. apply Forall_cons_iff in FT as [T FT]. constructor; [|auto].
  destruct (id_len a id T Eid) as [Bi Li]. destruct (base58_script_facts _ _ _ _ _ S1) as [Bl Ll]. rewrite A, E. pose proof (zlen_nonneg id).
  split; [|destruct lock; discriminate]. split; [split; [lia|reflexivity]|]. split.
  - apply is_bytes_app. split; [exact Bl|]. constructor; [unfold is_byte; lia|]. apply is_bytes_app. split; [repeat constructor; cbv; congruence|]. apply is_bytes_app. split; [exact Bi|]. apply is_bytes_app. split; [apply le_bytes_is_bytes|repeat constructor; cbv; congruence].
  - rewrite zlen_app, zlen_cons, !zlen_app, zlen_le_bytes. change (zlen (str "spkq")) with 4. change (zlen [117]) with 1. lia.
Qed.
Theorem cxc_asset_iff : forall H ap vins tos change lt r hexs, hash_ok H -> In ap cxc_coins -> Forall vin_typed vins -> Forall asset_typed tos -> vout_typed change -> zlen vins <= 252 -> zlen tos <= 251 ->
  (create_cxc_asset H vins tos change lt r ap = Ok hexs <-> created 1 (transferred H ap tos change) vins lt r hexs).
Proof.
  intros H ap vins tos change lt r hexs HH Hin TI TA TC Ni No. apply cxc_coin in Hin. destruct (coin_ok_facts H ap HH Hin) as [HP _].
  assert (W : forall so, transferred H ap tos change so -> holds so /\ Forall (fun o => s_lock o <> []) so).
  { intros so (front & back & F & B & ->). pose proof (transfers_facts H ap tos front TA F) as X. pose proof (Forall2_len _ _ _ F) as Le.
    destruct (pays_facts H ap false [] [change] [back]) as (_ & Y1 & Y2); [constructor; [exact TC|constructor]|constructor|cbv; congruence|constructor; [exact B|constructor]|].
    split; [split|]; [rewrite zlen_app; change (zlen [back]) with 1; pose proof (zlen_nonneg front); lia| |]; apply Forall_app; (split; [eapply Forall_impl; [|exact X]; cbn; tauto|assumption]). }
  apply create_created with (P := transferred H ap tos change); try assumption.
  - intros l. unfold cxc_asset_outs, transferred. split.
    + intros E. apply bind_ok in E as (o & Eo & E). apply bind_ok in E as (c & Ec & E).
      destruct (proj1 (concat_outs_of (asset_outs H ap) (transfers H ap) asset_typed tos TA (asset_outs_iff H ap HH Hin) (concat o))) as (front & Ef & F); [rewrite Eo; reflexivity|].
      apply (plain_outs_iff H ap _ [change] HH HP (coin_one_output H ap HH Hin)) in Ec as (so & -> & _ & Fc); [|constructor; [exact TC|constructor]]. inversion Fc as [|? back ? so' G F0]; subst. inversion F0; subst.
      exists (front ++ [back]). split; [rewrite map_app, <- Ef; injection E as <-; reflexivity|]. exists front, back. split; [exact F|]. split; [exact G|reflexivity].
    + intros (so & -> & front & back & F & B & ->).
      assert (Eo : (o <- mapr (asset_outs H ap) tos ;; Ok (concat o)) = Ok (map out_of front)) by (apply (concat_outs_of (asset_outs H ap) (transfers H ap) asset_typed tos TA (asset_outs_iff H ap HH Hin)); eauto).
      apply bind_ok in Eo as (o & Eo & Q). rewrite Eo. cbn [bind].
      assert (Ec : plain_outs H ap [change] = Ok (map out_of [back])).
      { apply (plain_outs_iff H ap _ [change] HH HP (coin_one_output H ap HH Hin)); [constructor; [exact TC|constructor]|]. exists [back]. split; [reflexivity|]. split; [discriminate|]. constructor; [exact B|constructor]. }
      rewrite Ec. cbn [bind]. assert (Q' : concat o = map out_of front) by congruence. rewrite Q', map_app. reflexivity.
  - intros so Q. apply W, Q.
  - intros so. split; [|tauto]. intros Q. split; [exact Q|apply W, Q].
Qed.

(** ** C109: Horizen (zencashTransaction) *)
(** The replay protection appended to every output script: a push of the block hash (the hex text read backwards), a push of
    the height as the shortest little-endian number, OP_CHECKBLOCKATHEIGHT. *)
Definition shortest (height : Z) (b : bytes) : Prop := is_bytes b /\ le_num b = height /\ (b = [] \/ last b 0 <> 0) /\ zlen b <= 8.
Definition replay_tail (blockHash : list Z) (height : Z) (tail : bytes) : Prop :=
  exists bh hb, hex_decode blockHash = Ok (rev bh) /\ shortest height hb /\ tail = 0x20 :: bh ++ zlen hb :: hb ++ [0xB4].
Lemma height_shortest height hb : 0 <= height < 2 ^ 64 -> shortest height hb <-> hb = height_bytes height.
Proof.
  intros Hh. unfold height_bytes. set (e := be_bytes 8 height). assert (Be : is_bytes e) by apply be_bytes_is_bytes.
  assert (Ve : be_num e = height) by (unfold e; rewrite be_num_be_bytes; apply Z.mod_small; exact Hh).
  assert (Le : zlen e = 8) by (unfold e, zlen; rewrite be_bytes_length; reflexivity). clearbody e.
  assert (Bs : is_bytes (strip0 e)). { rewrite (strip0_lead0 e) in Be. apply is_bytes_app in Be as [_ Be]. exact Be. }
  assert (Ls : zlen (strip0 e) <= 8). { rewrite (strip0_lead0 e), zlen_app in Le. pose proof (zlen_nonneg (zeros (lead0 e))). lia. }
  pose proof (strip0_head e) as Hs. split.
  - intros (B & V & Lz & L). rewrite <- (rev_involutive hb). f_equal. apply stripped_unique.
    + apply is_bytes_rev. exact B.
    + exact Bs.
    + destruct (rev hb) as [|x t] eqn:E; [reflexivity|]. apply strip0_nz. destruct Lz as [-> | Lz]; [discriminate|]. intros ->. apply Lz. rewrite <- (rev_involutive hb), E. cbn [rev]. apply last_last.
    + destruct (strip0 e) as [|x t]; [reflexivity|]. apply strip0_nz. exact Hs.
    + rewrite be_num_rev, be_num_strip0. congruence.
  - intros ->. split; [apply is_bytes_rev; exact Bs|]. split; [rewrite le_num_rev, be_num_strip0; exact Ve|]. split; [|rewrite zlen_rev; exact Ls].
    destruct (strip0 e) as [|x t]; [left; reflexivity|]. right. cbn [rev]. rewrite last_last. exact Hs.
Qed.
Lemma zen_tail_iff bh height tail : 0 <= height < 2 ^ 64 -> (exists hb, shortest height hb /\ tail = 0x20 :: bh ++ zlen hb :: hb ++ [0xB4]) <-> tail = zen_tail bh height.
Proof.
  intros Hh. unfold zen_tail. assert (Q : u8 (zlen (height_bytes height)) = zlen (height_bytes height)).
  { destruct (proj2 (height_shortest height (height_bytes height) Hh) eq_refl) as (_ & _ & _ & L). unfold u8. apply Z.mod_small. pose proof (zlen_nonneg (height_bytes height)). lia. }
  rewrite Q. split.
  - intros (hb & S1 & ->). apply height_shortest in S1; [|exact Hh]. subst hb. reflexivity.
  - intros ->. exists (height_bytes height). split; [apply height_shortest; auto|reflexivity].
Qed.
(** Creation succeeds exactly when the block hash is hex and every address is a base58check address with one of the two
    prefixes; the same replay protection ends every output. *)
Theorem zen_create_iff : forall H vins vouts lt r blockHash height hexs, hash_ok H -> Forall vin_typed vins -> Forall vout_typed vouts -> zlen vins <= 252 -> zlen vouts <= 252 -> zlen blockHash <= 400 -> 0 <= height < 2 ^ 64 ->
  (create_zen H vins vouts lt r zen_main blockHash height = Ok hexs <->
   exists tail, replay_tail blockHash height tail /\ created 1 (all_paid H zen_main false tail vouts) vins lt r hexs).
Proof.
  intros H vins vouts lt r blockHash height hexs HH TI TO Ni No Lb Hh. assert (C : coin_ok zen_main = true) by (vm_compute; reflexivity). destruct (coin_ok_facts H zen_main HH C) as [HP _].
  unfold create_zen, zen_outs. rewrite reverse_hex_dec.
  destruct (hex_decode blockHash) as [b| |] eqn:Eb; cbn [bind].
  2-3: (split; [intros E; exfalso; unfold create_v in E; apply bind_ok in E as (i & _ & E); cbv zeta in E; apply bind_ok in E as (l & El & _); destruct (zlen vouts =? 0); discriminate El|intros (tail & (bh & hb & Q & _) & _); rewrite Eb in Q; discriminate Q]).
  assert (Bb := Eb). apply hex_decode_bytes in Bb as [Bb Lbb].
  assert (T : forall tail, replay_tail blockHash height tail <-> tail = zen_tail (rev b) height).
  { intros tail. rewrite <- (zen_tail_iff (rev b) height tail Hh). unfold replay_tail. split.
    - intros (bh & hb & Q & S1 & E). assert (bh = rev b) by (rewrite <- (rev_involutive bh); f_equal; congruence). subst bh. eauto.
    - intros (hb & S1 & E). exists (rev b), hb. rewrite rev_involutive. auto. }
  set (tail := zen_tail (rev b) height) in *.
  assert (Bt : is_bytes tail /\ zlen tail <= 227).
  { destruct (proj2 (height_shortest height (height_bytes height) Hh) eq_refl) as (B1 & _ & _ & L1). destruct (proj2 (zen_tail_iff (rev b) height tail Hh) eq_refl) as (hb & (B2 & _ & _ & L2) & E). rewrite E. pose proof (zlen_nonneg hb). split.
    - constructor; [unfold is_byte; lia|]. apply is_bytes_app. split; [apply is_bytes_rev; exact Bb|]. constructor; [unfold is_byte; lia|]. apply is_bytes_app. split; [exact B2|repeat constructor; lia].
    - rewrite zlen_cons, zlen_app, zlen_cons, zlen_app, zlen_rev. change (zlen [180]) with 1. unfold zlen in *. lia. }
  destruct Bt as [Bt Lt].
  assert (X : forall l, (if zlen vouts =? 0 then Err else o <- mapr (both_outs H zen_main tail) vouts ;; Ok (concat o)) = Ok l <-> exists so, l = map out_of so /\ all_paid H zen_main false tail vouts so).
  { intros l. unfold all_paid. destruct vouts as [|v vs].
    - change (zlen (@nil vout) =? 0) with true. cbv iota. split; [discriminate|intros (so & _ & N & _); contradiction].
    - replace (zlen (v :: vs) =? 0) with false by (rewrite zlen_cons; pose proof (zlen_nonneg vs); lia).
      rewrite (concat_outs_of _ (gives (base58_script_for H zen_main false) tail) vout_typed _ TO (fun v Tv o => both_outs_iff H zen_main _ tail v HH HP (coin_one_output H zen_main HH C) Tv o)).
      split; intros (so & E & F); exists so; [split; [exact E|split; [discriminate|exact F]]|split; [exact E|apply F]]. }
  assert (Y : create_v 1 (if zlen vouts =? 0 then Err else o <- mapr (both_outs H zen_main tail) vouts ;; Ok (concat o)) vins lt r = Ok hexs <-> created 1 (all_paid H zen_main false tail vouts) vins lt r hexs).
  { apply create_created with (P := all_paid H zen_main false tail vouts); try assumption.
    - intros so A. eapply all_paid_holds; [exact TO|exact Bt|exact Lt|exact No|exact A].
    - intros so. apply all_paid_nonempty; assumption. }
  rewrite Y. split.
  - intros Cr. exists tail. split; [apply T; reflexivity|exact Cr].
  - intros (tail' & Q & Cr). apply T in Q. subst tail'. exact Cr.
Qed.
(** Script numbers: little-endian, the highest bit of the last byte is the sign. *)
Definition script_number (b : bytes) : Z := if last b 0 <? 128 then le_num b else - (le_num b - 128 * 256 ^ (zlen b - 1)).
(** The pushed height is read as the height exactly when its last byte is below 128; otherwise it is read as a number that is not positive. *)
Theorem zen_height_read : forall height hb, 0 <= height -> shortest height hb -> (last hb 0 < 128 -> script_number hb = height) /\ (128 <= last hb 0 -> script_number hb <= 0 < height).
Proof.
  intros height hb Hh (B & V & Lz & L). unfold script_number. split; intros Q; [replace (last hb 0 <? 128) with true by lia; exact V|]. replace (last hb 0 <? 128) with false by lia.
  destruct (exists_last (l := hb)) as (t & x & E). { intros ->. cbn in Q. lia. } rewrite E in *. rewrite last_last in Q. rewrite le_num_app in *. apply is_bytes_app in B as [Bt Bx]. rewrite zlen_app. change (zlen [x]) with 1. replace (zlen t + 1 - 1) with (zlen t) by lia.
  cbn [le_num] in *. pose proof (le_num_bound t Bt). assert (0 < 256 ^ zlen t) by (apply Z.pow_pos_nonneg; [lia|apply zlen_nonneg]). nia.
Qed.
(** All heights from 2^23 to 2^24 - 1 are read wrongly. *)
Theorem zen_height_from_2_23 : forall height hb, 2 ^ 23 <= height < 2 ^ 24 -> shortest height hb -> script_number hb <= 0.
Proof.
  intros height hb Hh S1. assert (Hh' := S1). apply height_shortest in Hh'; [|split; [lia|]; apply Z.lt_trans with (2 ^ 24); [lia|reflexivity]].
  destruct (zen_height_read height hb ltac:(lia) S1) as [_ R]. apply R. destruct S1 as (B & V & Lz & L).
  destruct (exists_last (l := hb)) as (t & x & E). { intros ->. cbn in V. lia. } rewrite E in *. rewrite last_last in *. rewrite le_num_app in V. apply is_bytes_app in B as [Bt Bx]. apply is_bytes_cons in Bx as [Bx _]. unfold is_byte in Bx. rewrite zlen_app in L. change (zlen [x]) with 1 in L.
  cbn [le_num] in V. pose proof (le_num_bound t Bt). pose proof (zlen_nonneg t) as Lt. destruct Lz as [Lz|Lz]; [destruct t; discriminate|].
  assert (K : zlen t = 2).
  { destruct (Z_lt_le_dec (zlen t) 2) as [S2|S2].
    - exfalso. assert (256 ^ zlen t <= 256 ^ 1) by (apply Z.pow_le_mono_r; lia). change (256 ^ 1) with 256 in *. change (2 ^ 23) with 8388608 in *. nia.
    - destruct (Z_lt_le_dec 2 (zlen t)) as [S3|S3]; [|lia]. exfalso. assert (256 ^ 3 <= 256 ^ zlen t) by (apply Z.pow_le_mono_r; lia). change (256 ^ 3) with 16777216 in *. change (2 ^ 24) with 16777216 in *. nia. }
  rewrite K in *. change (256 ^ 2) with 65536 in *. change (2 ^ 23) with 8388608 in *. change (2 ^ 24) with 16777216 in *. nia.
Qed.

(** ** The hypotheses can be met *)
Lemma prefixes_zen : prefixes_ok zen_main. Proof. apply (coin_ok_facts toy_hash zen_main toy_hash_ok). vm_compute. reflexivity. Qed.
Definition fam_vouts (p1 p2 : bytes) : list vout := [{| v_addr := ex_addr p1 9; v_amount := 5000000000 |}; {| v_addr := ex_addr p2 200; v_amount := 0 |}].
Example fork_example : exists hexs, create_fork toy_hash ex_vins (fam_vouts [0] [5]) 7 false bch_main = Ok hexs.
Proof. eexists. vm_compute. reflexivity. Qed.
Definition ex_omni : omni := {| o_type := 0; o_property := 31; o_amount := 100; o_ecosystem := 1; o_memo := []; o_address := [] |}.
Example omni_example : (exists hexs, create_omni toy_hash ex_vins (fam_vouts [0] [5]) ex_omni 7 false btc_main = Ok hexs) /\ payload_fits toy_hash ex_omni.
Proof.
  split; [eexists; vm_compute; reflexivity|]. intros s E. assert (Q : s = wrap (create_simple_send 31 100)) by (cbv [get_payload ex_omni o_type o_property o_amount] in E; cbn [Z.eqb] in E; congruence). subst s.
  split; [|vm_compute; congruence]. apply Forall_forall. intros x Hx. vm_compute in Hx. unfold is_byte. repeat (destruct Hx as [<- |Hx]; [lia|]). destruct Hx.
Qed.
Example hc_example : (exists hexs, create_hc toy_hash ex_vins (fam_vouts [0x7F] [0x7F]) 7 false hc_main = Ok hexs) /\ create_hc toy_hash ex_vins (fam_vouts [0x7F] [0x09; 0x7F]) 7 false hc_main = Err.
Proof. split; [eexists|]; vm_compute; reflexivity. Qed.
Definition ex_asset : asset := {| a_txid := hex_encode (repeat 4 16); a_addr := ex_addr [0] 3; a_amount := 77 |}.
Example cxc_example : exists hexs, create_cxc_asset toy_hash ex_vins [ex_asset; ex_asset] {| v_addr := ex_addr [5] 3; v_amount := 1 |} 0 true btc_main = Ok hexs.
Proof. eexists. vm_compute. reflexivity. Qed.
Example zen_example : exists hexs, create_zen toy_hash ex_vins (fam_vouts [0x20; 0x89] [0x20; 0x96]) 0 false zen_main (hex_encode (repeat 7 32)) 300000 = Ok hexs.
Proof. eexists. vm_compute. reflexivity. Qed.
Example zen_height_example : shortest 300000 [224; 147; 4] /\ script_number [224; 147; 4] = 300000 /\ shortest 40000 [64; 156] /\ script_number [64; 156] = -7232.
Proof. split; [apply height_shortest; [cbv; intuition congruence|reflexivity]|]. split; [reflexivity|]. split; [apply height_shortest; [cbv; intuition congruence|reflexivity]|reflexivity]. Qed.
Print Assumptions fork_create_iff.
Print Assumptions fork_created_read.
Print Assumptions fork_omni_create_iff.
Print Assumptions omni_create_iff.
Print Assumptions omni_created_read.
Print Assumptions omni_bech32_refused.
Print Assumptions omni_created_says.
Print Assumptions hc_create_iff.
Print Assumptions hc_own_addresses_refused.
Print Assumptions cxc_create_iff.
Print Assumptions cxc_asset_iff.
Print Assumptions zen_create_iff.
Print Assumptions zen_height_read.
Print Assumptions zen_height_from_2_23.
