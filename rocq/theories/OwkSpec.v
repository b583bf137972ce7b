(** Specification vocabulary for the key derivation of owkeychain: what the dependencies are assumed to
    provide, and the BIP32-style derivation formulas, stated without the code's helpers. *)
From Coq Require Import ZArith List Bool.
From Verif Require Import Go Base58CheckSpec OwkModel.
Import ListNotations.
Open Scope Z_scope.

(** The hash functions return byte strings of their documented sizes. *)
Record hashes_ok (C : crypto) : Prop := {
  hk_hmac : forall k m, is_bytes (hmac512 C k m) /\ length (hmac512 C k m) = 64%nat;
  hk_sha512 : forall m, is_bytes (sha512 C m) /\ length (sha512 C m) = 64%nat;
  hk_160 : forall m, is_bytes (hash160 C m) /\ length (hash160 C m) = 20%nat;
  hk_dsha : hash_ok (dsha256 C)
}.

Definition is_25519 (c : curve) : Prop := c = ED25519 \/ c = X25519 \/ c = CURVE25519_SHA256.

(** How a 32-byte scalar is read: little-endian on the 25519 curves, big-endian elsewhere. *)
Definition scalar_of (c : curve) (k : bytes) : Z := match c with ED25519 => le_num k | _ => be_num k end.

(** The elliptic-curve laws. For 0 < a < n, [P a] is the encoding of the point a*G that the package stores as
    public key and [U a] its 64-byte form without the leading 4; [n] is the order of the group. Scalars are
    handed over as 32 bytes. Nothing is assumed about encodings of the point at infinity. *)
Record curve_laws (C : crypto) (c : curve) (n : Z) (P U : Z -> bytes) : Prop := {
  cl_n : 1 < n;
  cl_mul : forall k, is_bytes k -> length k = 32%nat -> scalar_of c k mod n <> 0 -> mulG C c k = P (scalar_of c k mod n);
  cl_add : forall a s, 0 < a < n -> is_bytes s -> length s = 32%nat ->
    let sum := (a + scalar_of c s) mod n in
    let arg := if is_bls c || (match c with ED25519 => true | _ => false end) then P a else U a in
    let out := if is_bls c || (match c with ED25519 => true | _ => false end) then P sum else U sum in
    if sum =? 0 then snd (mul_add C c arg s) = true else mul_add C c arg s = (out, false);
  cl_dec : forall a, 0 < a < n -> decompress C c (P a) = 4 :: U a;
  cl_com : forall a, 0 < a < n -> compress C c (U a) = P a
}.

(** A well-formed private parent. *)
Definition private_key_ok (k : xkey) : Prop :=
  is_private k = true /\ is_bytes (key k) /\ length (key k) = 32%nat.

(** Keys obtained from a seed by any sequence of private derivations. *)
Inductive derived_from (C : crypto) (seed : bytes) (ct : Z) : xkey -> Prop :=
| df_root : forall k, init_root C seed ct = Ok k -> derived_from C seed ct k
| df_child : forall k i k', derived_from C seed ct k -> 0 <= i < 2 ^ 32 -> gen_private C k i = Ok k' -> derived_from C seed ct k'.

(** ... and by any mixture of private and public derivations. *)
Inductive derived_any (C : crypto) (k0 : xkey) : xkey -> Prop :=
| da_self : derived_any C k0 k0
| da_priv : forall k i k', derived_any C k0 k -> 0 <= i < 2 ^ 32 -> gen_private C k i = Ok k' -> derived_any C k0 k'
| da_pub : forall k i k', derived_any C k0 k -> 0 <= i < 2 ^ 32 -> gen_public C k i = Ok k' -> derived_any C k0 k'
| da_neuter : forall k, derived_any C k0 k -> derived_any C k0 (get_public C k).

(** The derivation digest: HMAC-SHA512 keyed by the chain code over the (public or private) key, with a zero
    byte in front when it has 32 bytes, followed by the child number. *)
Definition digest (C : crypto) (chain data : bytes) (i : Z) : bytes :=
  hmac512 C chain ((if zlen data =? 32 then [0] else []) ++ data ++ be_bytes 4 i).

(** A chain of derivations: one child number after the other. *)
Fixpoint derive_chain (gen : xkey -> Z -> res xkey) (k : xkey) (is : list Z) : res xkey :=
  match is with
  | [] => Ok k
  | i :: r => match gen k i with Ok k' => derive_chain gen k' r | Err => Err | Panic => Panic end
  end.
