(** The texts of JSON and what they say, after RFC 8259, written down without looking at the reader: an independent specification for
    GoUnjson.v. Where the RFC leaves a choice (bytes that are not UTF-8, surrogates without a partner) it is the one that the
    documentation of encoding/json states: U+FFFD takes their place. *)
From Coq Require Import String ZArith List Bool.
From Verif Require Import Go Json GoUnjson.
Import ListNotations.
Open Scope Z_scope.

(** White space: space, tab, line feed, carriage return. *)
Definition white (w : list Z) : Prop := Forall (fun c => c = 32 \/ c = 9 \/ c = 10 \/ c = 13) w.
(** number = [ minus ] int [ frac ] [ exp ] *)
Definition digit (d : Z) : Prop := 48 <= d <= 57.
Definition digits (ds : list Z) : Prop := ds <> [] /\ Forall digit ds.
Definition int_part (i : list Z) : Prop := i = [48] \/ exists d ds, i = d :: ds /\ 49 <= d <= 57 /\ Forall digit ds.
Definition frac_part (f : list Z) : Prop := f = [] \/ exists ds, f = 46 :: ds /\ digits ds.
Definition exp_part (e : list Z) : Prop := e = [] \/ exists c sg ds, e = c :: sg ++ ds /\ (c = 101 \/ c = 69) /\ (sg = [] \/ sg = [43] \/ sg = [45]) /\ digits ds.
Definition number_text (t : list Z) : Prop :=
  exists sg i f e, t = sg ++ i ++ f ++ e /\ (sg = [] \/ sg = [45]) /\ int_part i /\ frac_part f /\ exp_part e.
(** Strings: the text between the quotes, and the bytes it stands for. *)
Definition hexdigit (c n : Z) : Prop := (48 <= c <= 57 /\ n = c - 48) \/ (97 <= c <= 102 /\ n = c - 87) \/ (65 <= c <= 70 /\ n = c - 55).
Definition hex4 (h : list Z) (u : Z) : Prop :=
  exists a b c d na nb nc nd, h = [a; b; c; d] /\ hexdigit a na /\ hexdigit b nb /\ hexdigit c nc /\ hexdigit d nd /\ u = na * 4096 + nb * 256 + nc * 16 + nd.
(** What may follow a backslash, and what it means. *)
Definition short_escapes : list (Z * Z) := [(34, 34); (92, 92); (47, 47); (98, 8); (102, 12); (110, 10); (114, 13); (116, 9)].
Inductive chars : list Z -> list Z -> Prop :=
| ch_end : chars [] []
| ch_char c t v : scalar c -> 32 <= c -> c <> 34 -> c <> 92 -> chars t v -> chars (utf8 c ++ t) (utf8 c ++ v)
| ch_bad b t v : 128 <= b -> (forall c r, scalar c -> b :: t <> utf8 c ++ r) -> chars t v -> chars (b :: t) (utf8 65533 ++ v)
| ch_short e x t v : In (e, x) short_escapes -> chars t v -> chars (92 :: e :: t) (x :: v)
| ch_u h u t v : hex4 h u -> scalar u -> chars t v -> chars (92 :: 117 :: h ++ t) (utf8 u ++ v)
| ch_pair h1 h2 hi lo t v : hex4 h1 hi -> hex4 h2 lo -> 55296 <= hi < 56320 -> 56320 <= lo < 57344 -> chars t v ->
    chars (92 :: 117 :: h1 ++ 92 :: 117 :: h2 ++ t) (utf8 (65536 + (hi - 55296) * 1024 + (lo - 56320)) ++ v)
| ch_lone h u t v : hex4 h u -> 55296 <= u < 57344 ->
    (u < 56320 -> forall h' lo r, hex4 h' lo -> 56320 <= lo < 57344 -> t <> 92 :: 117 :: h' ++ r) -> chars t v ->
    chars (92 :: 117 :: h ++ t) (utf8 65533 ++ v).
(** Values; an element is a value with white space around it. *)
Inductive value_text : list Z -> jval -> Prop :=
| vt_null : value_text (str "null") VNull
| vt_true : value_text (str "true") (VBool true)
| vt_false : value_text (str "false") (VBool false)
| vt_num t : number_text t -> value_text t (VNum t)
| vt_str t s : chars t s -> value_text (34 :: t ++ [34]) (VStr s)
| vt_arr0 w : white w -> value_text (91 :: w ++ [93]) (VArr [])
| vt_arr t l : elements_text t l -> value_text (91 :: t ++ [93]) (VArr l)
| vt_obj0 w : white w -> value_text (123 :: w ++ [125]) (VObj [])
| vt_obj t l : members_text t l -> value_text (123 :: t ++ [125]) (VObj l)
with element_text : list Z -> jval -> Prop :=
| et w1 t w2 v : white w1 -> value_text t v -> white w2 -> element_text (w1 ++ t ++ w2) v
with elements_text : list Z -> list jval -> Prop :=
| els_one t v : element_text t v -> elements_text t [v]
| els_more t v ts l : element_text t v -> elements_text ts l -> elements_text (t ++ 44 :: ts) (v :: l)
with member_text : list Z -> list Z * jval -> Prop :=
| mt w1 k name w2 t v : white w1 -> chars k name -> white w2 -> element_text t v -> member_text (w1 ++ 34 :: k ++ 34 :: w2 ++ 58 :: t) (name, v)
with members_text : list Z -> list (list Z * jval) -> Prop :=
| ms_one t m : member_text t m -> members_text t [m]
| ms_more t m ts l : member_text t m -> members_text ts l -> members_text (t ++ 44 :: ts) (m :: l).
(** A JSON text is one element. *)
Definition is_json (s : list Z) (v : jval) : Prop := element_text s v.
Scheme value_ind' := Minimality for value_text Sort Prop
  with element_ind' := Minimality for element_text Sort Prop
  with elements_ind' := Minimality for elements_text Sort Prop
  with member_ind' := Minimality for member_text Sort Prop
  with members_ind' := Minimality for members_text Sort Prop.
Combined Scheme json_ind from value_ind', element_ind', elements_ind', member_ind', members_ind'.
