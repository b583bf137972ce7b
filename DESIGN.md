# Formal model of blocktree/go-owcdrivers

## 1. How the code is modelled

* Everything is in `/verif/rocq/theories` (Coq 8.16.1, standard library only).
  For an area `X` there are up to four kinds of files:
  `XModel.v` (Gallina transcription of Go functions, each with file and lines),
  `XSpec.v` (small independent specification, when it does not fit at the head of the Props file),
  `XProofs.v` (lemmas), `XProps.v` (specification vocabulary, final theorems, examples that meet their
  hypotheses, `Print Assumptions`).
* Bytes are `Z` in 0..255 (`bytes := list Z`, well-formedness `is_bytes`), runes
  are `Z`, Go strings are byte lists, fixed width integers are `Z` with an explicit
  `mod 2^k` at each place where Go wraps or converts.
* Go results are values of `res A := Ok a | Err | Panic`. A run-time panic
  (index or slice out of range, nil dereference) is an explicit outcome, so
  "never panics" and "panics exactly when" are theorems. Error texts are dropped.
* Loops become structural recursion or folds. Loops that need not end (nonce searches) get a round budget, and the
  theorems hold for every budget.
* In-place updates return the new buffer. Sharing of a backing array is modelled where a caller can see it:
  signature normalisation in place (C26), the DER decoders' `append` into the transaction buffer (C28), `GetTxID`
  reversing the caller's bytes (C121), the generic driver writing into the caller's unlock data (C116, C117) and transaction bytes (C133). Elsewhere
  `append` is concatenation; the comments name the places where the spare capacity of a caller's slice could be overwritten
  (`encode_check`, `encode_key`).
* External functions (SHA-256, RIPEMD-160, Keccak, BLAKE2b, HMAC, elliptic curve operations, `sort.Sort`, the clock, random
  numbers, the Binance SDK) are explicit function arguments of the definitions. The theorems are quantified over all of them;
  what is required of them (for example: digests of 32 bytes, group laws, that `sort.Sort` sorts) is a hypothesis of the
  theorem, and an example shows that it can be met. No axiom is used for them.
* Where the code does not do what a user expects, the theorem states exactly what it does for every input, and the property
  text says so.

## 2. Areas: what is modelled and how it is proved

| properties | Go code | model | method |
|---|---|---|---|
| C01-C04, C126 | `base58.go` (addressEncoder and 19 copies) with its real buffers and carry loops, also with alphabets of the caller's choice | Base58Model | invariant of the carry loop (number denoted by the buffer), capacity inequality by induction on the length |
| C05-C07 | DecodeCheck, EncodeCheck, GetProgramHashFromAddress in all variants | Base58CheckModel | C01/C02 and slicing lemmas |
| C08, C09, C15-C17, C67, C68, C134 | AddressEncode, AddressDecode, catData, recoverData, checksum rules, eip55, ICX, EOS, AE, XMR; every profile of encoderProfile.go | AddressModel, AddressProfiles | by cases on the profile, reduced to C01-C04 |
| C69 | AddressCheck | AddressCheckModel | leading characters of base58 texts by interval arithmetic (Digits58) |
| C10, C11, C149 | addressEncoder/bech32, btcTransaction/bech32.go | Bech32Model | bit regrouping lemmas; linearity of the checksum register over GF(2); the finite sweep for up to four errors is reduced by symmetry and computed by the kernel |
| C12 | base32PolyMod | CashAddrModel | same |
| C13, C14, C66 | bech32m, bytom bech32, ConvertBits | Bech32mModel | accumulator invariant |
| C139, C140 | bech32m and signatureSet for text outside ASCII | CaseModel | UTF-8 decoding, facts about the Unicode tables as hypotheses |
| C18 | crc32.go, crc24.go | CrcModel | table entry = eight shift steps, induction on the message |
| C19, C145 | base64.go | Base64Props, Base64DecModel, Base64DecProps | direct; the three loops of Decode satisfy one relation on groups of characters (induction), the groups give the number in base 64 |
| C20-C25, C70 | owkeychain | OwkModel | group with laws as hypotheses; induction on paths; text layout lemmas |
| C26-C29, C160 | serilizeS and the DER encoders and decoders of all packages | SigModel | number and leading-zero lemmas; the shared array of the decoders is explicit |
| C30-C37, C71-C73, C121-C123, C135, C148, C150, C151, C155, C158, C159 | btcTransaction | BtcModel, BtcVerModel, TxidModel | parser/printer inversion against BtcSpec.v (wire format, BIP143), induction on inputs |
| C38, C39, C74, C127, C128, C132, C153 | polkadotTransaction with its JSON texts | PolkadotModel, PolkadotJsonModel | SCALE specification, mode boundaries; JSON reader proved against the grammar of RFC 8259 (JsonGrammar.v) |
| C40, C41, C75, C142, C153 | rippleTransaction | RippleModel | field reader |
| C42, C43, C76, C141, C153 | waykichainTransaction | WaykiModel | strong induction on the varint loop |
| C44, C77, C131, C153 | virtualeconomyTransaction | VsysModel, VsysJsonModel | readers, JSON |
| C45, C46, C78, C138, C153 | moacchainTransaction | MoacModel | RLP specification |
| C47, C79, C130, C153 | filenetTransaction | FilenetModel, FilenetJsonModel | readers, sorting contract, JSON |
| C48-C50, C80, C137, C144 | ontologyTransaction | OntModel | a small NeoVM (OntSpec.v) |
| C50, C51, C81 | elastosTransaction | ElaModel, Uvarint | readers |
| C51, C52, C82-C84, C136, C154 | bytomTransaction | BytomModel | readers, prefix codes for injectivity of the hashed text |
| C53, C54, C90-C92, C143, C153 | hypercashTransaction | HyperModel | readers |
| C55, C93, C94, C147 | aliencoin, verge, vollar | LiteModel | readers, exact language of the decoders |
| C56, C95-C97, C153 | mateverseTransaction | MateModel | readers |
| C57, C87, C129, C146, C153 | fiiiTransaction with its JSON texts | FiiiModel, FiiiJsonModel | readers, JSON |
| C58, C59, C62, C85 | signatureSet | SignerModel | RFC 6979 specification, histories of registrations |
| C60, C86 | eosSignature | EosModel | same |
| C61, C88 | addressEncoder/blake256 with the compression function | BlakeModel | BlakeSpec.v (the definition of BLAKE); invariant of the Write buffer |
| C63, C64 | integer helpers, hex reversal | CodecModel | direct |
| C65, C89 | Omni payloads | OmniModel | readers |
| C98-C100, C153 | bigbangTransaction | BigbangModel | readers; Go's base32 decoder modelled |
| C101-C104, C153 | cosmosTransaction, evaioTransaction | CosmosModel, GoJson | Go's JSON writer against an independent JSON specification (Json.v) |
| C105-C113 | bitcoincash, bitcoinsv, omni, hc, cxc, zencash | FamModel | one parametric model of the packages derived from btcTransaction |
| C114-C120, C133, C152, C156, C157 | btcLikeTxDriver | LikeModel, LikeWitModel | as for btcTransaction; the caller's bytes after decoding are explicit |
| C124, C125 | binancechainTransaction | BinanceModel | the SDK is a record of functions |

Go's own library is modelled where a property needs it: `encoding/hex`, `encoding/json` (GoJson.v writer, GoUnjson.v reader),
`strconv.FormatInt`/`ParseInt`, `unicode/utf8`, `encoding/base64` and `base32`, `strings.Split`/`ReplaceAll`/`Index`,
`binary.Uvarint`, `sort.Sort` (contract only).

Not modelled: the numeric definitions of SHA-256, RIPEMD-160, Keccak and BLAKE2b, elliptic curve arithmetic (go-owcrypt),
the Binance SDK, gjson, the random source and the clock, printing and logging, error texts, tests, `example_owkeychain.go`.
Unexported copies of byte-order helpers and getters that only return a field are not listed one by one. For
`strings.ToUpper`/`ToLower`/`EqualFold` the models other than CaseModel fold ASCII letters only. Where this matters (bech32m texts,
signer names) CaseModel treats all characters, with unicode.ToUpper/ToLower/SimpleFold as parameters that meet the facts stated in
CaseProps and CaseSignerProps. Elsewhere the text is hexadecimal or was checked to be printable ASCII before.

Limits stated in the theorems themselves (hypotheses): most Bitcoin-like results are for at most 252 or 255 inputs and outputs,
because the code writes one-byte counts; what happens beyond is a theorem of its own (C31, C91, C94).

## 3. Trusted base

* the Coq 8.16.1 kernel and its `vm_compute` reduction machine;
* the reading of the Go source into Gallina (each definition cites its lines) and of Go's library as listed above;
* no axioms: see section 4. The checker that lists the axioms of all loaded libraries names
  `Coq.ssr.ssrunder.*`; those are parameters of a module type of the standard library that is loaded with it
  and on which no theorem here depends.
* no `Admitted`, no functors or module types, no kernel check switched off. `Variable`s occur only inside closed sections.

Wrong programs: `seeded/LOG.jsonl` lists the edits of the model that were tried, the theorems that failed and the theorems that
were tightened because an edit had survived.

## 4. Properties, theorems and assumptions

`Print Assumptions` answers "Closed under the global context" for every theorem in this table: none of them depends on an
axiom, neither of the standard library nor of any other library. The commands are at the end of each `*Props.v` file, so a
build prints the answers.

| id | status | theorem (file) |
|----|--------|----------------|
| C01 | proved | `base58_decode_encode` (Base58Props.v) |
| C02 | proved | `base58_encode_decode` (Base58Props.v), `base58_decode_injective` (Base58Props.v) |
| C03 | proved | `base58_encode_never_panics` (Base58Props.v), `base58_decode_never_panics` (Base58Props.v) |
| C04 | proved | `base58_encode_positional` (Base58Props.v) |
| C05 | proved | `decode_check_encode_check` (Base58CheckProps.v), `decode_check1_encode_check1` (Base58CheckProps.v), `decode_check_all_encode_check1` (Base58CheckProps.v), `decode_check_prefix_encode_check` (Base58CheckProps.v) |
| C06 | proved | `decode_check_sound` (Base58CheckProps.v), `decode_check1_sound` (Base58CheckProps.v), `decode_check_prefix_sound` (Base58CheckProps.v), `decode_check_panics_iff` (Base58CheckProps.v) |
| C07 | proved | `program_hash_never_panics` (Base58CheckProps.v), `program_hash_sound` (Base58CheckProps.v), `program_hash_complete` (Base58CheckProps.v) |
| C08 | proved | `address_decode_encode` (AddressProps.v), `listed_base58_profiles_wellformed` (AddressProps.v), `listed_base58_roundtrip` (AddressProps.v) |
| C09 | proved | `address_encode_decode` (AddressProps.v), `address_decode_injective` (AddressProps.v), `address_decode_panics_iff` (AddressProps.v), `address_decode_empty_body_panics` (AddressProps.v) |
| C10 | proved | `bech32_roundtrip_20` (Bech32Props.v), `bech32_roundtrip_32` (Bech32Props.v), `bech32_32_without_version` (Bech32Props.v), `bech32_empty_payload_panics` (Bech32Props.v), `bech32_digit_in_prefix_rejected` (Bech32Props.v) |
| C11 | proved | `bech32_errors_detected` (Bech32Props.v), `bech32_encoder_output_not_rejected` (Bech32Props.v) |
| C12 | proved | `cash_roundtrip` (CashAddrProps.v), `cash_roundtrip_identity_iff` (CashAddrProps.v), `cash_errors_detected` (CashAddrProps.v), `cash_other_prefix_unchecked` (CashAddrProps.v), `cash_upper_case_unchecked` (CashAddrProps.v), `cash_bare_unchecked` (CashAddrProps.v), `cash_short_panics` (CashAddrProps.v) |
| C13 | proved | `bech32m_roundtrip` (Bech32mProps.v), `bech32m_wrong_hrp_silent` (Bech32mProps.v), `bech32m_plain_checksum_silent` (Bech32mProps.v), `bech32m_errors_detected` (Bech32mProps.v) |
| C14 | proved | `convertbits_8_5_value` (Bech32mProps.v), `convertbits_roundtrip` (Bech32mProps.v), `bytom_convertbits_roundtrip` (Bech32mProps.v), `convertbits_accepted_canonical` (Bech32mProps.v), `bytom_convertbits_accepted_canonical` (Bech32mProps.v), `convertbits_5_8_injective` (Bech32mProps.v) |
| C15 | proved | `eth_encode_roundtrip` (AddressProps.v), `eth_encode_hashes_account` (AddressProps.v), `eth_decode_iff` (AddressProps.v), `eth_decode_panics_iff` (AddressProps.v), `icx_roundtrip` (AddressProps.v), `icx_decode_iff` (AddressProps.v), `icx_decode_panics_iff` (AddressProps.v) |
| C16 | proved | `eos_roundtrip` (AddressProps.v), `eos_decode_iff` (AddressProps.v), `eos_decode_never_panics` (AddressProps.v), `ae_roundtrip` (AddressProps.v), `ae_decode_iff` (AddressProps.v) |
| C17 | proved | `listed_xmr_profiles_wellformed` (AddressProps.v), `xmr_roundtrip` (AddressProps.v), `xmr_decode_iff` (AddressProps.v), `xmr_second_text` (AddressProps.v), `listed_xmr_versions_small` (AddressProps.v), `xmr_wrong_length_empty` (AddressProps.v) |
| C18 | proved | `crc32_is_bitwise` (CrcProps.v), `crc32_detects_bursts` (CrcProps.v), `crc24q_is_remainder` (CrcProps.v), `gf2_remainder_unique` (CrcProps.v) |
| C19 | proved | `base64_encode_panics` (Base64Props.v), `base64_encode_empty` (Base64Props.v), `base64_decode_panics` (Base64Props.v), `new_encoding_accepts_iff` (Base64Props.v) |
| C20 | proved | `ow_text_round_trip` (OwkTextProps.v), `ow_text_sound` (OwkTextProps.v), `ow_text_short_key_rejected` (OwkTextProps.v), `ow_text_no_panic` (OwkTextProps.v) |
| C21 | proved | `chain_text_round_trip` (OwkTextProps.v), `chain_text_sound` (OwkTextProps.v), `chain_text_no_panic` (OwkTextProps.v), `share_of_public_key` (OwkTextProps.v) |
| C22 | proved | `public_derivation_commutes` (OwkDeriveProps.v), `public_child_of_private_key` (OwkDeriveProps.v), `watch_only_chain` (OwkDeriveProps.v), `public_derivation_commutes_pasta` (OwkDeriveProps.v), `keys_25519_are_full_length` (OwkDeriveProps.v), `public_derivation_commutes_25519` (OwkDeriveProps.v), `coin_root_matches_private_keys` (OwkDeriveProps.v) |
| C23 | proved | `public_key_refuses` (OwkDeriveProps.v), `public_history_stays_public` (OwkDeriveProps.v), `private_chain_depth` (OwkDeriveProps.v), `depth_255_private_refused` (OwkDeriveProps.v), `public_chain_depth` (OwkDeriveProps.v), `public_depth_wraps` (OwkDeriveProps.v), `public_derivation_ignores_depth` (OwkDeriveProps.v) |
| C24 | proved | `private_child_scalar_and_length` (OwkDeriveProps.v), `private_child_full_length_iff` (OwkDeriveProps.v), `keys_25519_are_full_length` (OwkDeriveProps.v) |
| C25 | proved | `private_path_derives` (OwkPathProps.v), `private_path_accepts_only` (OwkPathProps.v), `root_aliases` (OwkPathProps.v), `element_meaning` (OwkPathProps.v), `hardened_mark_wraps` (OwkPathProps.v), `large_index_wraps` (OwkPathProps.v), `public_path_derives` (OwkPathProps.v), `public_path_accepts_only` (OwkPathProps.v), `private_path_never_panics` (OwkPathProps.v) |
| C26 | proved | `normalised_low_s` (SigNormProps.v), `normalise_idempotent` (SigNormProps.v), `normalise_keeps_low_s` (SigNormProps.v), `normalise_panics_iff` (SigNormProps.v) |
| C27 | proved | `normalised_length` (SigNormProps.v), `normalised_length_64_iff` (SigNormProps.v), `normalised_in_place` (SigNormProps.v) |
| C28 | proved | `signature_script_is_minimal_der` (SigDerProps.v), `minimal_der_unique` (SigDerProps.v), `signature_script_round_trip` (SigDerProps.v), `input_script_round_trip` (SigDerProps.v), `signature_script_reads_as` (SigDerProps.v), `input_script_reads_as` (SigDerProps.v), `input_script_round_trip_iff` (SigDerProps.v), `signature_script_panics_iff` (SigDerProps.v), `signature_script_accepts_exactly` (SigDerProps.v), `input_script_accepts_exactly` (SigDerProps.v), `input_script_malleable` (SigDerProps.v), `witness_script_round_trip` (SigDerProps.v), `witness_script_minimal_iff` (SigDerProps.v) |
| C29 | proved | `alien_integer_exact` (SigDerProps.v), `alien_script_panics_iff` (SigDerProps.v), `alien_script_reads_back` (SigDerProps.v), `alien_round_trip_iff` (SigDerProps.v), `alien_minimal_without_leading_zero` (SigDerProps.v) |
| C30 | proved | `create_transaction_iff` (BtcTxProps.v), `created_transaction_decodes` (BtcTxProps.v) |
| C31 | proved | `counts_are_one_byte` (BtcTxProps.v), `created_is_consensus_iff` (BtcTxProps.v), `decoded_counts` (BtcTxProps.v), `large_transaction_not_decoded` (BtcTxProps.v) |
| C32 | proved | `output_script_iff` (BtcTxProps.v), `base58_address_paid` (BtcTxProps.v), `other_prefix_refused` (BtcTxProps.v), `bech32_address_paid` (BtcTxProps.v), `empty_prefix_never_base58` (BtcTxProps.v) |
| C33 | proved | `created_sequences` (BtcTxProps.v) |
| C34 | proved | `hashes_to_sign_iff` (BtcSigProps.v), `legacy_message_injective` (BtcSigProps.v) |
| C35 | proved | `hashes_to_sign_iff` (BtcSigProps.v), `segwit_message_injective` (BtcSigProps.v), `segwit_needs_amount` (BtcSigProps.v), `long_script_length_truncated` (BtcSigProps.v) |
| C36 | proved | `create_multisig_iff` (BtcMultiProps.v), `at_most_15_keys` (BtcMultiProps.v), `multisig_script_read_back` (BtcMultiProps.v) |
| C37 | proved | `multisig_check_iff` (BtcMultiProps.v), `repeated_signature_accepted` (BtcMultiProps.v) |
| C38 | proved | `compact_encoding_exact` (PolkadotProps.v), `compact_zero_panics` (PolkadotProps.v), `compact_reads_back` (PolkadotProps.v) |
| C39 | proved | `era_period_and_phase` (PolkadotProps.v) |
| C40 | proved | `payment_created_iff` (RippleProps.v), `signing_hash_recomputed` (RippleProps.v) |
| C41 | proved | `truncated_payments_collide` (RippleProps.v), `signed_bytes_determine_payment` (RippleProps.v) |
| C42 | proved | `uvarint_reads_back` (WaykiProps.v), `uvarint_prefix_free` (WaykiProps.v), `uvarint_negative` (WaykiProps.v), `reg_id_accepted_iff` (WaykiProps.v), `padded_reg_id_encoded` (WaykiProps.v) |
| C43 | proved | `verified_hash_is_created_hash` (WaykiProps.v), `created_hash_covers_everything` (WaykiProps.v), `common_created` (WaykiProps.v), `register_created` (WaykiProps.v), `contract_created` (WaykiProps.v), `ucoin_created` (WaykiProps.v), `request_refused` (WaykiProps.v) |
| C44 | proved | `vsys_payment_created_iff` (VsysProps.v), `create_panics_iff` (VsysProps.v), `payment_decodes_back` (VsysProps.v), `attachment_lost` (VsysProps.v), `decodes_back_only_if` (VsysProps.v), `decoder_accepts_only_payments` (VsysProps.v), `vsys_decode_iff` (VsysProps.v), `vsys_decode_never_panics` (VsysProps.v) |
| C45 | proved | `list_header_canonical` (MoacProps.v), `uint64_canonical` (MoacProps.v), `bigint_canonical_iff` (MoacProps.v), `small_bigint_has_length_byte` (MoacProps.v), `bigint_sign_lost` (MoacProps.v), `moac_created_iff` (MoacProps.v) |
| C46 | proved | `moac_short_verified_iff` (MoacProps.v), `moac_long_refused` (MoacProps.v) |
| C47 | proved | `filenet_created_iff` (FilenetProps.v), `filenet_read_iff` (FilenetProps.v), `filenet_round_trip` (FilenetProps.v), `filenet_outputs_sorted` (FilenetProps.v) |
| C48 | proved | `ont_payload` (OntProps.v), `ont_created_iff` (OntProps.v), `ont_created_read` (OntProps.v), `ont_unsigned_round_trip` (OntProps.v), `ont_decode_unsigned` (OntProps.v), `ont_combine_iff` (OntProps.v), `ont_create_then_combine` (OntProps.v), `ont_one_signature_undecodable` (OntProps.v), `ont_signatures_lost` (OntProps.v), `ont_resigning_drops` (OntProps.v) |
| C49 | proved | `ont_uint64_pushed` (OntProps.v), `ont_bigint_pushed` (OntProps.v), `ont_long_payload_length` (OntProps.v) |
| C50 | proved | `ont_no_signatures_accepted` (OntProps.v), `ela_empty_accepted` (ElaProps.v), `ela_combine_iff` (ElaProps.v), `ela_any_signer` (ElaProps.v), `ela_combine_panics_iff` (ElaProps.v) |
| C51 | proved | `uvarint_written` (Uvarint.v), `uvarint_round_trip` (Uvarint.v), `uvarint_shortest` (Uvarint.v) |
| C52 | proved | `bytom_created_iff` (BytomProps.v), `bytom_created_read` (BytomProps.v), `bytom_created_decoded` (BytomProps.v) |
| C53 | proved | `hc_create_exact` (HyperProps.v), `hc_layout_read` (HyperProps.v), `hc_verify_created` (HyperProps.v) |
| C54 | proved | `var_int_shortest` (CodecProps.v) |
| C55 | proved | `lite_create_accepts` (LiteProps.v), `aliencoin_created` (LiteProps.v), `verge_created` (LiteProps.v), `vollar_created` (LiteProps.v), `lite_read` (LiteProps.v), `legacy_verify_created` (LiteProps.v), `vollar_verify_created` (LiteProps.v) |
| C56 | proved | `mate_flow` (MateProps.v) |
| C57 | proved | `fiii_combined_iff` (FiiiProps.v), `fiii_outputs_not_signed` (FiiiProps.v) |
| C58 | proved | `scalar_checks_exact` (SignerProps.v), `scalar_checks_panic` (SignerProps.v) |
| C59 | proved | `nonce_is_first_candidate_repeated` (SignerNonceProps.v), `refused_nonce_never_signs` (SignerNonceProps.v), `signer_bad_arguments` (SignerNonceProps.v), `signer_result` (SignerNonceProps.v) |
| C60 | proved | `eos_signature_iff` (EosProps.v), `eos_gives_up` (EosProps.v) |
| C61 | proved | `blake_any_history` (BlakeProps.v), `blake_salted_history` (BlakeProps.v) |
| C62 | proved | `registry_first_wins` (SignerRegProps.v), `default_signers_fixed` (SignerRegProps.v) |
| C63 | proved | `little_endian_codec` (CodecProps.v), `big_endian_codec` (CodecProps.v) |
| C64 | proved | `reversed_hex_exact` (CodecProps.v), `reversed_hex_round_trip` (CodecProps.v) |
| C65 | proved | `omni_script_says` (OmniProps.v), `omni_scripts_distinct` (OmniProps.v), `hc_simple_send_says` (OmniProps.v) |
| C66 | proved | `bytom_segwit_roundtrip` (Bech32mProps.v), `bytom_segwit_accepted_canonical` (Bech32mProps.v), `bytom_bech32_decode_injective` (Bech32mProps.v), `bytom_decode_mixed_case` (Bech32mProps.v) |
| C67 | proved | `address_encode_hashes_first` (AddressProps.v), `address_encode_no_rule_collapses` (AddressProps.v), `listed_base58_hash_rules` (AddressProps.v) |
| C68 | proved | `bech32_profile_ignores_network` (AddressProps.v), `bech32_profiles_accept_any_network` (AddressProps.v), `listed_bech32_roundtrip` (AddressProps.v) |
| C69 | proved | `address_check_complete` (AddressCheckProps.v), `address_check_sound` (AddressCheckProps.v), `address_check_other_symbols` (AddressCheckProps.v), `address_check_empty_panics` (AddressCheckProps.v), `nas_contract_rejected` (AddressCheckProps.v), `address_check_btc_short_panic` (AddressCheckProps.v) |
| C70 | proved | `root_from_seed_iff` (OwkRootProps.v), `bad_seed_refused` (OwkRootProps.v) |
| C71 | proved | `inserted_is_signed_transaction` (BtcVerProps.v) |
| C72 | proved | `verify_checks_only_supplied_keys` (BtcVerProps.v), `readable_checked_as_given` (BtcVerProps.v), `unreadable_rejected` (BtcVerProps.v) |
| C73 | proved | `multisig_address_pays_key_hash` (BtcMultiProps.v) |
| C74 | proved | `message_iff` (PolkadotProps.v), `message_determines_transfer` (PolkadotProps.v), `message_is_never_hashed` (PolkadotProps.v), `combined_transaction_iff` (PolkadotProps.v), `bad_sender_gives_empty_transaction` (PolkadotProps.v) |
| C75 | proved | `signed_payment_iff` (RippleProps.v), `wrong_length_gives_unsigned` (RippleProps.v), `bad_key_panics` (RippleProps.v) |
| C76 | proved | `combined_iff_verified` (WaykiProps.v) |
| C77 | proved | `verified_iff_text_signed` (VsysProps.v), `sent_is_signed` (VsysProps.v) |
| C78 | proved | `moac_longer_misread` (MoacProps.v), `moac_verify_panics_iff` (MoacProps.v) |
| C79 | proved | `filenet_verified_iff` (FilenetProps.v), `filenet_read_panics_iff` (FilenetProps.v) |
| C80 | proved | `ont_create_panics_iff` (OntProps.v), `ont_signature_count_truncated` (OntProps.v) |
| C81 | proved | `ela_created_iff` (ElaProps.v), `ela_create_no_panic` (ElaProps.v), `ela_created_read` (ElaProps.v), `ela_hashes` (ElaProps.v), `ela_ids_ambiguous` (ElaProps.v) |
| C82 | proved | `bytom_hash_commits` (BytomSigProps.v), `bytom_version_not_signed` (BytomSigProps.v) |
| C83 | proved | `bytom_signed` (BytomSignProps.v), `bytom_unsigned_verified` (BytomSignProps.v), `bytom_crashes` (BytomSignProps.v) |
| C84 | proved | `bytom_multisig_created` (BytomSignProps.v), `bytom_multisig_padded` (BytomSignProps.v), `bytom_pairs_meaning` (BytomSignProps.v), `bytom_honest_accepted` (BytomSignProps.v), `bytom_multisig_count_wrong` (BytomSignProps.v), `bytom_one_of_many_unreadable` (BytomSignProps.v) |
| C85 | proved | `sign_tx_hash_dispatch` (SignerRegProps.v), `nas_trx_invalid_key` (SignerRegProps.v) |
| C86 | proved | `eos_nonce` (EosProps.v) |
| C87 | proved | `fiii_created_iff` (FiiiProps.v), `fiii_hash_covers` (FiiiProps.v) |
| C88 | proved | `double_blake256_twice` (BlakeProps.v) |
| C89 | proved | `long_memo_unreadable` (OmniProps.v), `refused_destination_dropped` (OmniProps.v), `other_kinds_refused` (OmniProps.v) |
| C90 | proved | `hc_verify_sound` (HyperProps.v) |
| C91 | proved | `hc_vin_list` (HyperProps.v) |
| C92 | proved | `hc_create_omni_exact` (HyperProps.v) |
| C93 | proved | `legacy_verify_iff` (LiteProps.v), `vollar_verify_iff` (LiteProps.v) |
| C94 | proved | `too_many_refused` (LiteProps.v) |
| C95 | proved | `mate_inputs_iff` (MateProps.v), `mate_shows_unique` (MateProps.v), `mate_hashes_iff` (MateProps.v) |
| C96 | proved | `mate_verify_iff` (MateProps.v), `mate_text_not_checked` (MateProps.v) |
| C97 | proved | `mate_lock_scripts` (MateProps.v), `mate_lock_hex_kept` (MateProps.v) |
| C98 | proved | `bb_create_iff` (BigbangProps.v), `bb_read_iff` (BigbangProps.v) |
| C99 | proved | `bb_address_iff` (BigbangProps.v), `bb_address_panics_iff` (BigbangProps.v), `bb_address_unique` (BigbangProps.v), `bb_address_typos` (BigbangProps.v) |
| C100 | proved | `bb_combine_iff` (BigbangProps.v), `bb_flow` (BigbangProps.v) |
| C101 | proved | `cosmos_document` (CosmosProps.v), `cosmos_document_binding` (CosmosProps.v), `cosmos_invalid_text_same` (CosmosProps.v) |
| C102 | proved | `cosmos_build` (CosmosProps.v), `cosmos_transfer` (CosmosProps.v) |
| C103 | proved | `cosmos_sign_iff` (CosmosProps.v), `cosmos_verify_iff` (CosmosProps.v), `cosmos_flow` (CosmosProps.v) |
| C104 | proved | `cosmos_request_iff` (CosmosProps.v), `cosmos_base64_unique` (CosmosProps.v) |
| C105 | proved | `fork_create_iff` (FamTxProps.v), `fork_created_read` (FamTxProps.v), `fork_omni_create_iff` (FamTxProps.v) |
| C106 | proved | `omni_create_iff` (FamTxProps.v), `omni_created_read` (FamTxProps.v), `omni_bech32_refused` (FamTxProps.v), `omni_created_says` (FamTxProps.v) |
| C107 | proved | `hc_create_iff` (FamTxProps.v), `hc_own_addresses_refused` (FamTxProps.v) |
| C108 | proved | `cxc_create_iff` (FamTxProps.v), `cxc_asset_iff` (FamTxProps.v) |
| C109 | proved | `zen_create_iff` (FamTxProps.v), `zen_height_read` (FamTxProps.v), `zen_height_from_2_23` (FamTxProps.v) |
| C110 | proved | `fork_hashes_iff` (FamSigProps.v), `shown_cash_decodes` (FamSigProps.v), `fork_witness_panics` (FamSigProps.v), `fork_created_unsigned` (FamSigProps.v) |
| C111 | proved | `fork_inserted_and_checked` (FamSigProps.v) |
| C112 | proved | `cxc_hashes_iff` (FamSigProps.v), `cxc_inserted_and_checked` (FamSigProps.v) |
| C113 | proved | `zen_hashes_iff` (FamSigProps.v), `zen_inserted_and_checked` (FamSigProps.v) |
| C114 | proved | `like_create_iff` (LikeProps.v), `like_create_no_bech32` (LikeProps.v), `like_created_decodes` (LikeProps.v) |
| C115 | proved | `like_decode_plain` (LikeProps.v), `like_decode_flag` (LikeProps.v), `like_decode_marked` (LikeWitProps.v), `like_decode_marked_panics` (LikeWitProps.v), `like_decode_witness` (LikeProps.v), `like_witness_short_panics` (LikeProps.v) |
| C116 | proved | `like_hashes_iff` (LikeSigProps.v), `like_hashes_panic_iff` (LikeSigProps.v), `like_hashes_again` (LikeSigProps.v) |
| C117 | proved | `like_insert_iff` (LikeInsProps.v), `like_insert_key_refused` (LikeInsProps.v), `like_insert_after_hashes` (LikeInsProps.v), `like_insert_uses_up` (LikeInsProps.v) |
| C118 | proved | `like_verify_iff` (LikeVerProps.v), `like_round_trip` (LikeVerProps.v), `like_verify_panics` (LikeVerProps.v), `like_verify_after_insert_panics` (LikeVerProps.v) |
| C119 | proved | `like_sign_raw_iff` (LikeAutoProps.v), `like_sign_two_segwit` (LikeAutoProps.v), `like_sign_one_segwit` (LikeAutoProps.v), `like_sign_verified` (LikeAutoProps.v) |
| C120 | proved | `like_multisig_iff` (LikeMultiProps.v), `like_multisig_pays` (LikeMultiProps.v), `like_multi_insert` (LikeMultiProps.v), `like_multi_witness_iff` (LikeMultiProps.v), `like_multi_refused` (LikeMultiProps.v) |
| C121 | proved | `get_txid_history` (TxidProps.v), `get_txid_corrupts` (TxidProps.v), `get_txid_of_created` (TxidProps.v) |
| C122 | proved | `many_inserted_is_signed_transaction` (BtcManyProps.v), `many_witness_iff` (BtcManyProps.v) |
| C123 | proved | `many_verified_iff_valid` (BtcManyProps.v) |
| C124 | proved | `binance_create_iff` (BinanceProps.v), `binance_sign_iff` (BinanceProps.v) |
| C125 | proved | `binance_combine_iff` (BinanceProps.v), `binance_combine_crash_iff` (BinanceProps.v), `binance_chain_ignored` (BinanceProps.v), `binance_flow` (BinanceProps.v) |
| C126 | proved | `base58_alphabet_crash_iff` (Base58AlphaProps.v), `base58_custom_alphabet_iff` (Base58AlphaProps.v) |
| C127 | proved | `polkadot_json_round_trip` (PolkadotJsonProps.v), `polkadot_json_accepted_iff` (PolkadotJsonProps.v), `polkadot_json_last_member` (PolkadotJsonProps.v) |
| C128 | proved | `polkadot_created_text_combines` (PolkadotJsonProps.v), `polkadot_text_flow` (PolkadotJsonProps.v) |
| C129 | proved | `fiii_json_round_trip` (FiiiJsonProps.v), `fiii_created_text_combines` (FiiiJsonProps.v), `fiii_text_flow` (FiiiJsonProps.v) |
| C130 | proved | `filenet_text_iff` (FilenetJsonProps.v), `filenet_text_flow` (FilenetJsonProps.v) |
| C131 | proved | `vsys_text_iff` (VsysJsonProps.v), `vsys_text_flow` (VsysJsonProps.v), `vsys_attachment_unsendable` (VsysJsonProps.v) |
| C132 | proved | `unjson_iff_json` (JsonGrammarProps.v), `json_meaning_unique` (JsonReadProps.v), `polkadot_not_json_refused` (JsonReadProps.v), `fiii_not_json_refused` (JsonReadProps.v), `polkadot_same_meaning` (JsonReadProps.v), `fiii_same_meaning` (JsonReadProps.v), `polkadot_member_order` (JsonReadProps.v) |
| C133 | proved | `like_decode_leaves_plain` (LikeWitProps.v), `like_decode_leaves` (LikeWitProps.v), `like_decode_twice` (LikeWitProps.v) |
| C134 | proved | `data_checksum` (AddressDataProps.v), `data_unknown_rule` (AddressDataProps.v), `data_decode_iff` (AddressDataProps.v), `data_decode_crash_iff` (AddressDataProps.v), `data_round_trip` (AddressDataProps.v), `data_other_encoding` (AddressDataProps.v) |
| C135 | proved | `btc_decode_iff` (BtcDecodeProps.v), `btc_decode_panics_iff` (BtcDecodeProps.v), `btc_decode_marked_injective` (BtcDecodeProps.v), `btc_decode_two_texts` (BtcDecodeProps.v) |
| C136 | proved | `bytom_decode_iff` (BytomDecodeProps.v), `bytom_decode_panics_iff` (BytomDecodeProps.v), `bytom_same_shown_iff` (BytomDecodeProps.v) |
| C137 | proved | `ont_decode_iff` (OntDecodeProps.v), `ont_decode_never_panics` (OntDecodeProps.v), `ont_decode_injective` (OntDecodeProps.v) |
| C138 | proved | `moac_signed_iff` (MoacTextProps.v) |
| C139 | proved | `uni_bech32m_text_iff` (CaseProps.v), `chia_decode_iff` (CaseProps.v), `chia_decode_nothing_iff` (CaseProps.v), `chia_decode_never_panics` (CaseProps.v), `chia_roundtrip_iff` (CaseProps.v), `ascii_address_decode` (CaseProps.v) |
| C140 | proved | `uni_registry_first_wins` (CaseSignerProps.v), `default_signer_iff` (CaseSignerProps.v), `uni_sign_tx_hash_cases` (CaseSignerProps.v), `ascii_registry` (CaseSignerProps.v) |
| C141 | proved | `wicc_combine_iff` (WaykiTextProps.v), `wicc_combine_panics_iff` (WaykiTextProps.v), `wicc_combine_outcomes` (WaykiTextProps.v), `wicc_short_signature_panics` (WaykiTextProps.v), `wicc_any_signature_panics_iff` (WaykiSizeProps.v), `wicc_any_signature_accepted_iff` (WaykiSizeProps.v), `wicc_any_signature_combined_iff` (WaykiSizeProps.v), `wicc_other_sizes_combined` (WaykiSizeProps.v) |
| C142 | proved | `xrp_combine_iff` (RippleTextProps.v), `xrp_combine_panics_iff` (RippleTextProps.v), `text_splits_uniquely` (RippleTextProps.v), `xrp_no_marker_unsigned` (RippleTextProps.v), `xrp_one_marker` (RippleTextProps.v) |
| C143 | proved | `hc_combine_iff` (HyperTextProps.v), `hc_combine_panics_iff` (HyperTextProps.v), `hc_script_is_der` (HyperTextProps.v) |
| C144 | proved | `ont_text_combine_iff` (OntTextProps.v), `ont_text_combine_panics_iff` (OntTextProps.v), `ont_old_signature_unchecked` (OntTextProps.v) |
| C145 | proved | `base64_decode_result` (Base64DecProps.v), `base64_decode_panics_iff` (Base64DecProps.v), `base64_decode_accepts_iff` (Base64DecProps.v), `base64_decode_enough` (Base64DecProps.v), `base64_alphabets` (Base64DecProps.v), `base64_digit_distinct` (Base64DecProps.v) |
| C146 | proved | `fiii_json_accepted_iff` (FiiiReadProps.v), `fiii_json_reading` (FiiiReadProps.v), `fiii_json_null` (FiiiReadProps.v), `fiii_json_determined` (FiiiReadProps.v), `fiii_member_order` (FiiiReadProps.v), `fiii_combine_text_iff` (FiiiReadProps.v), `fiii_combined_text_reads` (FiiiReadProps.v) |
| C147 | proved | `verge_script_panics_iff` (LitePanicProps.v), `legacy_panics_iff` (LitePanicProps.v), `aliencoin_panics_iff` (LitePanicProps.v), `verge_panics_iff` (LitePanicProps.v), `vollar_panics_iff` (LitePanicProps.v), `alien_any_script_panics_iff` (LitePanicProps.v) |
| C148 | proved | `network_pays` (BtcNetProps.v), `fork_network_pays` (BtcNetProps.v), `cxc_network_pays` (BtcNetProps.v), `foreign_address_stops_creation` (BtcNetProps.v), `longer_hrp_paid` (BtcNetProps.v), `foreign_hrp_refused` (BtcNetProps.v), `horizen_pays` (BtcNetProps.v), `zcash_pays_no_base58` (BtcNetProps.v), `fork_zcash_pays` (BtcNetProps.v) |
| C149 | proved | `bech32_decodes_exactly` (Bech32DecProps.v), `bech32_crashes_exactly` (Bech32DecProps.v), `bech32_refuses_exactly` (Bech32DecProps.v), `bech32_capitals_refused` (Bech32DecProps.v) |
| C150 | proved | `btc_creation_crashes_exactly` (FamPanicProps.v), `fork_creation_crashes_exactly` (FamPanicProps.v), `both_creation_crashes_exactly` (FamPanicProps.v), `zen_creation_crashes_exactly` (FamPanicProps.v), `hashing_crashes_exactly` (FamPanicProps.v), `fork_hashing_crashes` (FamPanicProps.v), `zen_hashing_crashes` (FamPanicProps.v), `btc_insertion_crashes_exactly` (FamPanicProps.v), `fam_insertion_crashes_exactly` (FamPanicProps.v) |
| C151 | proved | `btc_check_crashes_exactly` (FamCheckProps.v), `fam_check_crashes_exactly` (FamCheckProps.v), `sound_keys_never_crash_check` (FamCheckProps.v), `unsigned_check_crashes` (FamCheckProps.v) |
| C152 | proved | `like_creation_crashes_exactly` (LikePanicProps.v), `like_insertion_crashes_exactly` (LikePanicProps.v) |
| C153 | proved | `ripple_creation_never_crashes` (CreatePanicProps.v), `waykichain_creation_never_crashes` (CreatePanicProps.v), `filenet_creation_never_crashes` (CreatePanicProps.v), `moac_creation_crashes_exactly` (CreatePanicProps.v), `vsys_creation_crashes_exactly` (CreatePanicProps.v), `bigbang_creation_crashes_exactly` (CreatePanicProps.v), `cosmos_creation_crashes_exactly` (CreatePanicProps.v), `hypercash_creation_crashes_exactly` (CreatePanicProps.v), `hypercash_omni_creation_crashes_exactly` (CreatePanicProps.v), `fiiicoin_creation_crashes_exactly` (CreatePanicProps.v), `polkadot_never_crashes` (CreatePanicProps.v), `mateverse_combining_crashes_exactly` (CreatePanicProps.v) |
| C154 | proved | `bytom_creation_crashes_exactly` (BytomPanicProps.v), `bytom_hashing_crashes_exactly` (BytomPanicProps.v), `bytom_insertion_crashes_exactly` (BytomPanicProps.v), `bytom_verification_crashes_exactly` (BytomPanicProps.v), `bytom_multisig_never_crashes` (BytomPanicProps.v) |
| C155 | proved | `btc_any_check_crashes_exactly` (FamSharedCheckProps.v), `fam_any_check_crashes_exactly` (FamSharedCheckProps.v), `sound_keys_crash_only_on_mismatch` (FamSharedCheckProps.v), `single_for_shared_crashes` (FamSharedCheckProps.v), `shared_for_single_crashes` (FamSharedCheckProps.v), `unsigned_any_check_crashes` (FamSharedCheckProps.v) |
| C156 | proved | `like_check_crashes_exactly` (LikeCheckPanicProps.v), `like_check_plain_safe` (LikeCheckPanicProps.v), `missing_witness_crashes` (LikeCheckPanicProps.v) |
| C157 | proved | `like_hashing_crashes_exactly` (LikeSignPanicProps.v), `like_signing_crashes_exactly` (LikeSignPanicProps.v), `like_hash_signing_never_crashes` (LikeSignPanicProps.v) |
| C158 | proved | `fork_hashing_crashes_exactly` (ForkHashPanicProps.v), `zen_hashing_crashes_exactly` (ForkHashPanicProps.v) |
| C159 | proved | `fork_omni_creation_crashes_exactly` (TokenPanicProps.v), `omni_creation_crashes_exactly` (TokenPanicProps.v), `asset_creation_crashes_exactly` (TokenPanicProps.v) |
| C160 | proved | `any_signature_script` (SigAnyProps.v), `any_input_script` (SigAnyProps.v), `any_other_script` (SigAnyProps.v), `trimmed_number` (SigAnyProps.v) |
