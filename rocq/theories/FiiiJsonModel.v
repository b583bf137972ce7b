(** Model of the JSON texts of fiiiTransaction (transaction.go with the structures of txStruct.go, txInput.go, txOutput.go), and of
    signing. The JSON writer and reader of Go are GoJson.v and GoUnjson.v. *)
From Coq Require Import String ZArith List Bool.
From Verif Require Import Go Rd Base58Model GoJson GoUnjson FiiiModel.
Import ListNotations.
Open Scope Z_scope.

(** json.Marshal of a slice: a nil slice is written as null. *)
Definition slice_text {A} (nil : bool) (f : A -> list Z) (l : list A) : list Z := go_array (if nil then None else Some (map f l)).
(** txInput.go:9-15, the JSON text of an input. *)
Definition input_json (i : input) : list Z :=
  go_object [
    (str "OutputTransactionHash", go_string (i_hash i));
    (str "OutputIndex", format_int (i_index i));
    (str "Size", format_int (i_size i));
    (str "UnlockScript", go_string (i_unlock i))].
(** txOutput.go:10-15, the JSON text of an output. *)
Definition output_json (o : output) : list Z :=
  go_object [
    (str "Index", format_int (o_index o));
    (str "Amount", format_int (o_amount o));
    (str "Size", format_int (o_size o));
    (str "LockScript", go_string (o_lock o))].
(** txStruct.go:11-22, the JSON text of a transaction, with whether its slices are nil. *)
Definition tx_text (nil_inputs nil_outputs : bool) (t : txmsg) : list Z :=
  go_object [
    (str "Version", format_int (t_version t));
    (str "Hash", go_string (t_hash t));
    (str "Timestamp", format_int (t_timestamp t));
    (str "Locktime", format_int (t_lock t));
    (str "ExpiredTime", format_int (t_expired t));
    (str "InputCount", format_int (t_incount t));
    (str "OutputCount", format_int (t_outcount t));
    (str "Inputs", slice_text nil_inputs input_json (t_inputs t));
    (str "Outputs", slice_text nil_outputs output_json (t_outputs t));
    (str "Size", format_int (t_size t))].
(** A transaction built by appending (transaction.go:24-58): a slice without elements is nil. *)
Definition no_items {A} (l : list A) : bool := match l with [] => true | _ => false end.
Definition tx_json (t : txmsg) : list Z := tx_text (no_items (t_inputs t)) (no_items (t_outputs t)) t.
(** txInput.go:9-15, each field as json.Unmarshal fills it ([int] has 64 bits). *)
Definition set_i_hash (v : jval) (t : input) : option input := option_map (fun x => {| i_hash := x; i_index := i_index t; i_size := i_size t; i_unlock := i_unlock t |}) (to_string v (i_hash t)).
Definition set_i_index (v : jval) (t : input) : option input := option_map (fun x => {| i_hash := i_hash t; i_index := x; i_size := i_size t; i_unlock := i_unlock t |}) (to_int 64 v (i_index t)).
Definition set_i_size (v : jval) (t : input) : option input := option_map (fun x => {| i_hash := i_hash t; i_index := i_index t; i_size := x; i_unlock := i_unlock t |}) (to_int 64 v (i_size t)).
Definition set_i_unlock (v : jval) (t : input) : option input := option_map (fun x => {| i_hash := i_hash t; i_index := i_index t; i_size := i_size t; i_unlock := x |}) (to_string v (i_unlock t)).
Definition input_fields : list (list Z * (jval -> input -> option input)) := [
  (str "OutputTransactionHash", set_i_hash);
  (str "OutputIndex", set_i_index);
  (str "Size", set_i_size);
  (str "UnlockScript", set_i_unlock)].
Definition zero_input : input := {| i_hash := []; i_index := 0; i_size := 0; i_unlock := [] |}.
(** txOutput.go:10-15. *)
Definition set_o_index (v : jval) (t : output) : option output := option_map (fun x => {| o_index := x; o_amount := o_amount t; o_size := o_size t; o_lock := o_lock t |}) (to_int 64 v (o_index t)).
Definition set_o_amount (v : jval) (t : output) : option output := option_map (fun x => {| o_index := o_index t; o_amount := x; o_size := o_size t; o_lock := o_lock t |}) (to_int 64 v (o_amount t)).
Definition set_o_size (v : jval) (t : output) : option output := option_map (fun x => {| o_index := o_index t; o_amount := o_amount t; o_size := x; o_lock := o_lock t |}) (to_int 64 v (o_size t)).
Definition set_o_lock (v : jval) (t : output) : option output := option_map (fun x => {| o_index := o_index t; o_amount := o_amount t; o_size := o_size t; o_lock := x |}) (to_string v (o_lock t)).
Definition output_fields : list (list Z * (jval -> output -> option output)) := [
  (str "Index", set_o_index);
  (str "Amount", set_o_amount);
  (str "Size", set_o_size);
  (str "LockScript", set_o_lock)].
Definition zero_output : output := {| o_index := 0; o_amount := 0; o_size := 0; o_lock := [] |}.
(** txStruct.go:11-22. *)
Definition set_t_version (v : jval) (t : txmsg) : option txmsg := option_map (fun x => {| t_version := x; t_hash := t_hash t; t_timestamp := t_timestamp t; t_lock := t_lock t; t_expired := t_expired t; t_incount := t_incount t; t_outcount := t_outcount t; t_inputs := t_inputs t; t_outputs := t_outputs t; t_size := t_size t |}) (to_int 64 v (t_version t)).
Definition set_t_hash (v : jval) (t : txmsg) : option txmsg := option_map (fun x => {| t_version := t_version t; t_hash := x; t_timestamp := t_timestamp t; t_lock := t_lock t; t_expired := t_expired t; t_incount := t_incount t; t_outcount := t_outcount t; t_inputs := t_inputs t; t_outputs := t_outputs t; t_size := t_size t |}) (to_string v (t_hash t)).
Definition set_t_timestamp (v : jval) (t : txmsg) : option txmsg := option_map (fun x => {| t_version := t_version t; t_hash := t_hash t; t_timestamp := x; t_lock := t_lock t; t_expired := t_expired t; t_incount := t_incount t; t_outcount := t_outcount t; t_inputs := t_inputs t; t_outputs := t_outputs t; t_size := t_size t |}) (to_int 64 v (t_timestamp t)).
Definition set_t_lock (v : jval) (t : txmsg) : option txmsg := option_map (fun x => {| t_version := t_version t; t_hash := t_hash t; t_timestamp := t_timestamp t; t_lock := x; t_expired := t_expired t; t_incount := t_incount t; t_outcount := t_outcount t; t_inputs := t_inputs t; t_outputs := t_outputs t; t_size := t_size t |}) (to_int 64 v (t_lock t)).
Definition set_t_expired (v : jval) (t : txmsg) : option txmsg := option_map (fun x => {| t_version := t_version t; t_hash := t_hash t; t_timestamp := t_timestamp t; t_lock := t_lock t; t_expired := x; t_incount := t_incount t; t_outcount := t_outcount t; t_inputs := t_inputs t; t_outputs := t_outputs t; t_size := t_size t |}) (to_int 64 v (t_expired t)).
Definition set_t_incount (v : jval) (t : txmsg) : option txmsg := option_map (fun x => {| t_version := t_version t; t_hash := t_hash t; t_timestamp := t_timestamp t; t_lock := t_lock t; t_expired := t_expired t; t_incount := x; t_outcount := t_outcount t; t_inputs := t_inputs t; t_outputs := t_outputs t; t_size := t_size t |}) (to_int 64 v (t_incount t)).
Definition set_t_outcount (v : jval) (t : txmsg) : option txmsg := option_map (fun x => {| t_version := t_version t; t_hash := t_hash t; t_timestamp := t_timestamp t; t_lock := t_lock t; t_expired := t_expired t; t_incount := t_incount t; t_outcount := x; t_inputs := t_inputs t; t_outputs := t_outputs t; t_size := t_size t |}) (to_int 64 v (t_outcount t)).
Definition set_t_size (v : jval) (t : txmsg) : option txmsg := option_map (fun x => {| t_version := t_version t; t_hash := t_hash t; t_timestamp := t_timestamp t; t_lock := t_lock t; t_expired := t_expired t; t_incount := t_incount t; t_outcount := t_outcount t; t_inputs := t_inputs t; t_outputs := t_outputs t; t_size := x |}) (to_int 64 v (t_size t)).
(** The transaction while it is read, with its two slices; [r_tx] holds none of their elements. *)
Record reading := { r_tx : txmsg; r_inputs : slice input; r_outputs : slice output }.
Definition lift (g : jval -> txmsg -> option txmsg) (v : jval) (r : reading) : option reading := option_map (fun t => {| r_tx := t; r_inputs := r_inputs r; r_outputs := r_outputs r |}) (g v (r_tx r)).
Definition set_r_inputs (v : jval) (r : reading) : option reading := option_map (fun x => {| r_tx := r_tx r; r_inputs := x; r_outputs := r_outputs r |}) (to_slice input input_fields zero_input v (r_inputs r)).
Definition set_r_outputs (v : jval) (r : reading) : option reading := option_map (fun x => {| r_tx := r_tx r; r_inputs := r_inputs r; r_outputs := x |}) (to_slice output output_fields zero_output v (r_outputs r)).
Definition tx_fields : list (list Z * (jval -> reading -> option reading)) := [
  (str "Version", lift set_t_version);
  (str "Hash", lift set_t_hash);
  (str "Timestamp", lift set_t_timestamp);
  (str "Locktime", lift set_t_lock);
  (str "ExpiredTime", lift set_t_expired);
  (str "InputCount", lift set_t_incount);
  (str "OutputCount", lift set_t_outcount);
  (str "Inputs", set_r_inputs);
  (str "Outputs", set_r_outputs);
  (str "Size", lift set_t_size)].
Definition zero_tx : txmsg := {| t_version := 0; t_hash := []; t_timestamp := 0; t_lock := 0; t_expired := 0; t_incount := 0; t_outcount := 0; t_inputs := []; t_outputs := []; t_size := 0 |}.
Definition zero_reading : reading := {| r_tx := zero_tx; r_inputs := nil_slice; r_outputs := nil_slice |}.
Definition read_tx (r : reading) : txmsg :=
  {| t_version := t_version (r_tx r); t_hash := t_hash (r_tx r); t_timestamp := t_timestamp (r_tx r); t_lock := t_lock (r_tx r); t_expired := t_expired (r_tx r);
     t_incount := t_incount (r_tx r); t_outcount := t_outcount (r_tx r); t_inputs := items (r_inputs r); t_outputs := items (r_outputs r); t_size := t_size (r_tx r) |}.
(** transaction.go:90-96, reading the text. *)
Definition read_json (text : list Z) : res reading :=
  match unjson text with
  | Some v => match to_struct reading tx_fields v zero_reading with Some r => Ok r | None => Err end
  | None => Err
  end.
Definition from_json (text : list Z) : res txmsg := r <- read_json text ;; Ok (read_tx r).
(** transaction.go:24-65 CreateEmptyTransactionAndMessage with its text. *)
Definition create_text (al : alphabet) (H2 : bytes -> bytes) (now : Z) (inputs : list vin) (outputs : list vout) (version locktime expiredtime : Z) : res (list Z * list (list Z)) :=
  p <- create al H2 now inputs outputs version locktime expiredtime ;; Ok (tx_json (fst p), snd p).
(** transaction.go:67-87 SignTransactionMessage; [sign key msg] is the signature of owcrypt.Signature (ed25519) if it succeeds. *)
Definition sign_message (sign : bytes -> bytes -> option bytes) (message : list Z) (key : bytes) : res bytes :=
  if zlen message =? 0 then Err else
  if negb (zlen key =? 32) then Err else
  data <- hex_decode message ;;
  match sign key data with Some s => Ok s | None => Err end.
(** transaction.go:89-130 VerifyAndCombineTransaction with its texts. *)
Definition combine_text (H : bytes -> bytes) (verify : bytes -> bytes -> bytes -> bool) (text : list Z) (sps : list sigpub) : res (list Z) :=
  r <- read_json text ;; out <- verify_combine H verify (read_tx r) sps ;; Ok (tx_text (is_nil (r_inputs r)) (is_nil (r_outputs r)) out).
