(** Vocabulary for property C149: the texts of the bech32 address decoder. Nothing here refers to
    the model: only byte values, lists and arithmetic. *)
From Coq Require Import ZArith List Bool.
From Verif Require Import Go.
Import ListNotations.
Open Scope Z_scope.

(** Character classes of ASCII. *)
Definition lower_case (c : Z) : Prop := 97 <= c <= 122.
Definition upper_case (c : Z) : Prop := 65 <= c <= 90.
Definition decimal (c : Z) : Prop := 48 <= c <= 57.
Definition letter (c : Z) : Prop := lower_case c \/ upper_case c.
Definition alphanumeric (c : Z) : Prop := letter c \/ decimal c.
(** Not both cases in one text. *)
Definition one_case (s : list Z) : Prop := ~ (Exists lower_case s /\ Exists upper_case s).

(** How the decoder divides a text in a human-readable part and the digits that follow. With one
    '1' (49): letters, the '1', and the rest. Without a '1': the whole text is the readable part, and
    everything but its first character is, a second time, the digits. *)
Definition divided (a hrp data : list Z) : Prop :=
  (a = hrp ++ [49] ++ data /\ hrp <> [] /\ Forall letter hrp /\ Forall alphanumeric data /\ ~ In 49 data) \/
  (a <> [] /\ Forall alphanumeric a /\ ~ In 49 a /\ hrp = a /\ data = tl a).

(** The bech32 digits, in order: q p z r y 9 x 8 g f 2 t v d w 0 s 3 j n 5 4 k h c e 6 m u a 7 l. *)
Definition bech32_symbols : list Z :=
  [113;112;122;114;121;57;120;56;103;102;50;116;118;100;119;48;115;51;106;110;53;52;107;104;99;101;54;109;117;97;55;108].
(** [c] stands for the digit [d]: it is the symbol number [d], or that symbol's capital. *)
Definition stands_for (c d : Z) : Prop :=
  0 <= d /\ exists s, nth_error bech32_symbols (Z.to_nat d) = Some s /\ (c = s \/ (lower_case s /\ c = s - 32)).

(** The checksum of BIP 173, on the readable part as it is written (BIP 173 wants it in lower case). *)
Definition bip173_expand (hrp : list Z) : list Z := map (fun c => c / 32) hrp ++ [0] ++ map (fun c => c mod 32) hrp.
Definition bip173_step (chk v : Z) : Z :=
  let top := chk / 2 ^ 25 in
  let pick (i g : Z) := if Z.odd (top / 2 ^ i) then g else 0 in
  Z.lxor (Z.lxor ((chk mod 2 ^ 25) * 2 ^ 5) v)
   (Z.lxor (pick 0 0x3b6a57b2) (Z.lxor (pick 1 0x26508e6d) (Z.lxor (pick 2 0x1ea119fa) (Z.lxor (pick 3 0x3d4233dd) (pick 4 0x2a1462b3))))).
Definition bip173_checksum_ok (hrp ds : list Z) : Prop := fold_left bip173_step (bip173_expand hrp ++ ds) 1 = 1.

(** The number written by base-32 digits, most significant first. *)
Fixpoint value32 (ds : list Z) : Z :=
  match ds with [] => 0 | d :: r => d * 32 ^ zlen r + value32 r end.
(** The bytes [h] the decoder makes of the digits before the checksum: the lowest whole bytes of their
    number; for 33 of those, the 32 bytes found half a byte further up. *)
Definition unpacked (ds h : list Z) : Prop :=
  let n := zlen ds * 5 / 8 in
  is_bytes h /\
  (n <> 33 /\ zlen h = n /\ be_num h = value32 ds mod 256 ^ n \/
   n = 33 /\ zlen h = 32 /\ be_num h = (value32 ds / 16) mod 256 ^ 32).

(** A text with correct spelling: divided, one case, every character a digit, correct checksum. *)
Definition well_spelt (a hrp ds : list Z) : Prop :=
  exists data, divided a hrp data /\ one_case a /\ Forall2 stands_for data ds /\ bip173_checksum_ok hrp ds.
