{
 "claims": [
  {
   "property": "C01",
   "status": "proved",
   "theorems": [
    "base58_decode_encode"
   ],
   "note": "all byte strings, any 58-symbol ASCII alphabet"
  },
  {
   "property": "C02",
   "status": "proved",
   "theorems": [
    "base58_encode_decode",
    "base58_decode_injective"
   ],
   "note": ""
  },
  {
   "property": "C03",
   "status": "proved",
   "theorems": [
    "base58_encode_never_panics",
    "base58_decode_never_panics"
   ],
   "note": ""
  },
  {
   "property": "C04",
   "status": "proved",
   "theorems": [
    "base58_encode_positional"
   ],
   "note": ""
  },
  {
   "property": "C05",
   "status": "proved",
   "theorems": [
    "decode_check_encode_check",
    "decode_check1_encode_check1",
    "decode_check_all_encode_check1",
    "decode_check_prefix_encode_check"
   ],
   "note": "Hash oracle is an arbitrary function returning at least four bytes."
  },
  {
   "property": "C06",
   "status": "proved",
   "theorems": [
    "decode_check_sound",
    "decode_check1_sound",
    "decode_check_prefix_sound",
    "decode_check_panics_iff"
   ],
   "note": "Includes the exact panic condition (decoded data shorter than four bytes)."
  },
  {
   "property": "C07",
   "status": "proved",
   "theorems": [
    "program_hash_never_panics",
    "program_hash_sound",
    "program_hash_complete"
   ],
   "note": ""
  },
  {
   "property": "C08",
   "status": "proved",
   "theorems": [
    "address_decode_encode",
    "listed_base58_profiles_wellformed",
    "listed_base58_roundtrip"
   ],
   "note": "Covers every base58 profile of encoderProfile.go; hash functions arbitrary with the right digest sizes."
  },
  {
   "property": "C09",
   "status": "proved",
   "theorems": [
    "address_encode_decode",
    "address_decode_injective",
    "address_decode_panics_iff",
    "address_decode_empty_body_panics"
   ],
   "note": ""
  },
  {
   "property": "C10",
   "status": "proved",
   "theorems": [
    "bech32_roundtrip_20",
    "bech32_roundtrip_32",
    "bech32_32_without_version",
    "bech32_empty_payload_panics",
    "bech32_digit_in_prefix_rejected"
   ],
   "note": ""
  },
  {
   "property": "C11",
   "status": "proved",
   "theorems": [
    "bech32_errors_detected",
    "bech32_encoder_output_not_rejected"
   ],
   "note": ""
  },
  {
   "property": "C12",
   "status": "proved",
   "theorems": [
    "cash_roundtrip",
    "cash_roundtrip_identity_iff",
    "cash_errors_detected",
    "cash_other_prefix_unchecked",
    "cash_upper_case_unchecked",
    "cash_bare_unchecked",
    "cash_short_panics"
   ],
   "note": ""
  },
  {
   "property": "C13",
   "status": "proved",
   "theorems": [
    "bech32m_roundtrip",
    "bech32m_wrong_hrp_silent",
    "bech32m_plain_checksum_silent",
    "bech32m_errors_detected"
   ],
   "note": "ASCII strings only; C139 covers text outside ASCII, where Go's ToLower also folds the Kelvin sign."
  },
  {
   "property": "C14",
   "status": "proved",
   "theorems": [
    "convertbits_8_5_value",
    "convertbits_roundtrip",
    "bytom_convertbits_roundtrip",
    "convertbits_accepted_canonical",
    "bytom_convertbits_accepted_canonical",
    "convertbits_5_8_injective"
   ],
   "note": ""
  },
  {
   "property": "C15",
   "status": "proved",
   "theorems": [
    "eth_encode_roundtrip",
    "eth_encode_hashes_account",
    "eth_decode_iff",
    "eth_decode_panics_iff",
    "icx_roundtrip",
    "icx_decode_iff",
    "icx_decode_panics_iff"
   ],
   "note": ""
  },
  {
   "property": "C16",
   "status": "proved",
   "theorems": [
    "eos_roundtrip",
    "eos_decode_iff",
    "eos_decode_never_panics",
    "ae_roundtrip",
    "ae_decode_iff"
   ],
   "note": ""
  },
  {
   "property": "C17",
   "status": "proved",
   "theorems": [
    "listed_xmr_profiles_wellformed",
    "xmr_roundtrip",
    "xmr_decode_iff",
    "xmr_second_text",
    "listed_xmr_versions_small",
    "xmr_wrong_length_empty"
   ],
   "note": ""
  },
  {
   "property": "C18",
   "status": "proved",
   "theorems": [
    "crc32_is_bitwise",
    "crc32_detects_bursts",
    "crc24q_is_remainder",
    "gf2_remainder_unique"
   ],
   "note": ""
  },
  {
   "property": "C19",
   "status": "proved",
   "theorems": [
    "base64_encode_panics",
    "base64_encode_empty",
    "base64_decode_panics",
    "new_encoding_accepts_iff"
   ],
   "note": "The method Decode, which Base64Decode never reaches, is the subject of C145."
  },
  {
   "property": "C20",
   "status": "proved",
   "theorems": [
    "ow_text_round_trip",
    "ow_text_sound",
    "ow_text_short_key_rejected",
    "ow_text_no_panic"
   ],
   "note": "Checksum hash is a parameter (hashes_ok: 32 byte digests). The reader accepts a public text under either public prefix, so re-encoding equals the text only when the prefix is the one of the key's curve (stated in ow_text_sound)."
  },
  {
   "property": "C21",
   "status": "proved",
   "theorems": [
    "chain_text_round_trip",
    "chain_text_sound",
    "chain_text_no_panic",
    "share_of_public_key"
   ],
   "note": "Exact characterisation: the format has no checksum and is ambiguous for 33 byte keys starting with zero."
  },
  {
   "property": "C22",
   "status": "proved",
   "theorems": [
    "public_derivation_commutes",
    "public_child_of_private_key",
    "watch_only_chain",
    "public_derivation_commutes_pasta",
    "keys_25519_are_full_length",
    "public_derivation_commutes_25519",
    "coin_root_matches_private_keys"
   ],
   "note": "For every group satisfying curve_laws and every HMAC. On the 25519 curves unconditional for keys made from a seed; on the others conditional on 32-byte storage (see C24)."
  },
  {
   "property": "C23",
   "status": "proved",
   "theorems": [
    "public_key_refuses",
    "public_history_stays_public",
    "private_chain_depth",
    "depth_255_private_refused",
    "public_chain_depth",
    "public_depth_wraps",
    "public_derivation_ignores_depth"
   ],
   "note": ""
  },
  {
   "property": "C24",
   "status": "proved",
   "theorems": [
    "private_child_scalar_and_length",
    "private_child_full_length_iff",
    "keys_25519_are_full_length"
   ],
   "note": "Exact length formula; BLS and Pasta have clamped digests and are covered only through C22."
  },
  {
   "property": "C25",
   "status": "proved",
   "theorems": [
    "private_path_derives",
    "private_path_accepts_only",
    "root_aliases",
    "element_meaning",
    "hardened_mark_wraps",
    "large_index_wraps",
    "public_path_derives",
    "public_path_accepts_only",
    "private_path_never_panics"
   ],
   "note": "Both directions: which paths are accepted and which child numbers they select."
  },
  {
   "property": "C26",
   "status": "proved",
   "theorems": [
    "normalised_low_s",
    "normalise_idempotent",
    "normalise_keeps_low_s",
    "normalise_panics_iff"
   ],
   "note": ""
  },
  {
   "property": "C27",
   "status": "proved",
   "theorems": [
    "normalised_length",
    "normalised_length_64_iff",
    "normalised_in_place"
   ],
   "note": ""
  },
  {
   "property": "C28",
   "status": "proved",
   "theorems": [
    "signature_script_is_minimal_der",
    "minimal_der_unique",
    "signature_script_round_trip",
    "input_script_round_trip",
    "signature_script_reads_as",
    "input_script_reads_as",
    "input_script_round_trip_iff",
    "signature_script_panics_iff",
    "signature_script_accepts_exactly",
    "input_script_accepts_exactly",
    "input_script_malleable",
    "witness_script_round_trip",
    "witness_script_minimal_iff"
   ],
   "note": "Public keys and hash types are opaque bytes. The in-place append of the decoders is modelled: signatures with r >= 2^247 and s < 2^231 are in general not read back."
  },
  {
   "property": "C29",
   "status": "proved",
   "theorems": [
    "alien_integer_exact",
    "alien_script_panics_iff",
    "alien_script_reads_back",
    "alien_round_trip_iff",
    "alien_minimal_without_leading_zero"
   ],
   "note": ""
  },
  {
   "property": "C30",
   "status": "proved",
   "theorems": [
    "create_transaction_iff",
    "created_transaction_decodes"
   ],
   "note": "For 1..255 inputs and outputs and addresses of at most 400 characters (bech32 decoding has no length limit, so a longer text could give a script of more than 255 bytes)."
  },
  {
   "property": "C31",
   "status": "proved",
   "theorems": [
    "counts_are_one_byte",
    "created_is_consensus_iff",
    "decoded_counts",
    "large_transaction_not_decoded"
   ],
   "note": ""
  },
  {
   "property": "C32",
   "status": "proved",
   "theorems": [
    "output_script_iff",
    "base58_address_paid",
    "other_prefix_refused",
    "bech32_address_paid",
    "empty_prefix_never_base58"
   ],
   "note": "Exact characterisation for every address and prefix table; unconditional corollaries for the Bitcoin, Bitcoin Cash and Litecoin tables. Bech32 witness versions are ignored, and with the Zcash tables no base58 address can be paid."
  },
  {
   "property": "C33",
   "status": "proved",
   "theorems": [
    "created_sequences"
   ],
   "note": ""
  },
  {
   "property": "C34",
   "status": "proved",
   "theorems": [
    "hashes_to_sign_iff",
    "legacy_message_injective"
   ],
   "note": "For created transactions with at most 252 inputs and outputs and redeem scripts of at most 252 bytes, CreateRawTransactionHashForSig succeeds exactly when the stated per-input relation holds; the P2PKH (and non-segwit multisig) message is the consensus legacy message. The message determines transaction, position and script. Hash functions are arbitrary functions."
  },
  {
   "property": "C35",
   "status": "proved",
   "theorems": [
    "hashes_to_sign_iff",
    "segwit_message_injective",
    "segwit_needs_amount",
    "long_script_length_truncated"
   ],
   "note": "The BIP143 message is proved for scripts up to 252 bytes; for longer multisig scripts the theorem shows the one-byte length and that the message is then not the BIP143 message."
  },
  {
   "property": "C36",
   "status": "proved",
   "theorems": [
    "create_multisig_iff",
    "at_most_15_keys",
    "multisig_script_read_back"
   ],
   "note": ""
  },
  {
   "property": "C37",
   "status": "proved",
   "theorems": [
    "multisig_check_iff",
    "repeated_signature_accepted"
   ],
   "note": "Stated for the check of one input as VerifyRawTransaction performs it; an example carries a repeated signature through the whole API."
  },
  {
   "property": "C38",
   "status": "proved",
   "theorems": [
    "compact_encoding_exact",
    "compact_zero_panics",
    "compact_reads_back"
   ],
   "note": ""
  },
  {
   "property": "C39",
   "status": "proved",
   "theorems": [
    "era_period_and_phase"
   ],
   "note": ""
  },
  {
   "property": "C40",
   "status": "proved",
   "theorems": [
    "payment_created_iff",
    "signing_hash_recomputed"
   ],
   "note": ""
  },
  {
   "property": "C41",
   "status": "proved",
   "theorems": [
    "truncated_payments_collide",
    "signed_bytes_determine_payment"
   ],
   "note": ""
  },
  {
   "property": "C42",
   "status": "proved",
   "theorems": [
    "uvarint_reads_back",
    "uvarint_prefix_free",
    "uvarint_negative",
    "reg_id_accepted_iff",
    "padded_reg_id_encoded"
   ],
   "note": ""
  },
  {
   "property": "C43",
   "status": "proved",
   "theorems": [
    "verified_hash_is_created_hash",
    "created_hash_covers_everything",
    "common_created",
    "register_created",
    "contract_created",
    "ucoin_created",
    "request_refused"
   ],
   "note": "The coin-transfer sender ID is not checked by the code; the theorem is for well-formed IDs."
  },
  {
   "property": "C44",
   "status": "proved",
   "theorems": [
    "vsys_payment_created_iff",
    "create_panics_iff",
    "payment_decodes_back",
    "attachment_lost",
    "decodes_back_only_if",
    "decoder_accepts_only_payments",
    "vsys_decode_iff",
    "vsys_decode_never_panics"
   ],
   "note": ""
  },
  {
   "property": "C45",
   "status": "proved",
   "theorems": [
    "list_header_canonical",
    "uint64_canonical",
    "bigint_canonical_iff",
    "small_bigint_has_length_byte",
    "bigint_sign_lost",
    "moac_created_iff"
   ],
   "note": ""
  },
  {
   "property": "C46",
   "status": "proved",
   "theorems": [
    "moac_short_verified_iff",
    "moac_long_refused"
   ],
   "note": "For numbers below 256^127 (longer ones would overflow the length byte). Hash, recovery, compression and signature check are parameters."
  },
  {
   "property": "C47",
   "status": "proved",
   "theorems": [
    "filenet_created_iff",
    "filenet_read_iff",
    "filenet_round_trip",
    "filenet_outputs_sorted"
   ],
   "note": "sort.Sort is a parameter with Go's documented contract (shown satisfiable by insertion sort); the JSON text is C130."
  },
  {
   "property": "C48",
   "status": "proved",
   "theorems": [
    "ont_payload",
    "ont_created_iff",
    "ont_created_read",
    "ont_unsigned_round_trip",
    "ont_decode_unsigned",
    "ont_combine_iff",
    "ont_create_then_combine",
    "ont_one_signature_undecodable",
    "ont_signatures_lost",
    "ont_resigning_drops"
   ],
   "note": "The random nonce is a parameter. The payload is read by a small NeoVM in OntSpec.v."
  },
  {
   "property": "C49",
   "status": "proved",
   "theorems": [
    "ont_uint64_pushed",
    "ont_bigint_pushed",
    "ont_long_payload_length"
   ],
   "note": ""
  },
  {
   "property": "C50",
   "status": "proved",
   "theorems": [
    "ont_no_signatures_accepted",
    "ela_empty_accepted",
    "ela_combine_iff",
    "ela_any_signer",
    "ela_combine_panics_iff"
   ],
   "note": "Point decompression and ECDSA verification are parameters."
  },
  {
   "property": "C51",
   "status": "proved",
   "theorems": [
    "uvarint_written",
    "uvarint_round_trip",
    "uvarint_shortest"
   ],
   "note": ""
  },
  {
   "property": "C52",
   "status": "proved",
   "theorems": [
    "bytom_created_iff",
    "bytom_created_read",
    "bytom_created_decoded"
   ],
   "note": ""
  },
  {
   "property": "C53",
   "status": "proved",
   "theorems": [
    "hc_create_exact",
    "hc_layout_read",
    "hc_verify_created"
   ],
   "note": "BLAKE-256, point decompression and the signature check are parameters. The tree and script version given by the caller are not used by the code (tree 0, version 0 are written). Signatures whose witness cannot be written (r or s zero, empty decompressed key) make the code panic; see C17/C90."
  },
  {
   "property": "C54",
   "status": "proved",
   "theorems": [
    "var_int_shortest"
   ],
   "note": ""
  },
  {
   "property": "C55",
   "status": "proved",
   "theorems": [
    "lite_create_accepts",
    "aliencoin_created",
    "verge_created",
    "vollar_created",
    "lite_read",
    "legacy_verify_created",
    "vollar_verify_created"
   ],
   "note": "Exact creation, independent reader, exact acceptance of the created text. Hash, address checksum, point decompression, signature checker are arbitrary functions."
  },
  {
   "property": "C56",
   "status": "proved",
   "theorems": [
    "mate_flow"
   ],
   "note": "For every hash function with 32-byte results, every decompression and signature checker. Input objects distinct."
  },
  {
   "property": "C57",
   "status": "proved",
   "theorems": [
    "fiii_combined_iff",
    "fiii_outputs_not_signed"
   ],
   "note": "Ed25519 verification and SHA-256 are parameters; the JSON texts are C129."
  },
  {
   "property": "C58",
   "status": "proved",
   "theorems": [
    "scalar_checks_exact",
    "scalar_checks_panic"
   ],
   "note": ""
  },
  {
   "property": "C59",
   "status": "proved",
   "theorems": [
    "nonce_is_first_candidate_repeated",
    "refused_nonce_never_signs",
    "signer_bad_arguments",
    "signer_result"
   ],
   "note": "HMAC and the curve library are parameters. The loop of EthSignature is modelled with a round budget; the theorem covers every budget."
  },
  {
   "property": "C60",
   "status": "proved",
   "theorems": [
    "eos_signature_iff",
    "eos_gives_up"
   ],
   "note": "HMAC, SHA-256 and the curve library are parameters."
  },
  {
   "property": "C61",
   "status": "proved",
   "theorems": [
    "blake_any_history",
    "blake_salted_history"
   ],
   "note": "The compression function is modelled too: the 1568 unrolled lines are transcribed as a table of 224 steps."
  },
  {
   "property": "C62",
   "status": "proved",
   "theorems": [
    "registry_first_wins",
    "default_signers_fixed"
   ],
   "note": "strings.ToUpper/EqualFold are modelled for ASCII names; C140 covers the other names."
  },
  {
   "property": "C63",
   "status": "proved",
   "theorems": [
    "little_endian_codec",
    "big_endian_codec"
   ],
   "note": ""
  },
  {
   "property": "C64",
   "status": "proved",
   "theorems": [
    "reversed_hex_exact",
    "reversed_hex_round_trip"
   ],
   "note": "Upper-case digits are accepted and come back in lower case."
  },
  {
   "property": "C65",
   "status": "proved",
   "theorems": [
    "omni_script_says",
    "omni_scripts_distinct",
    "hc_simple_send_says"
   ],
   "note": "Base58 alphabet and checksum hash are parameters."
  },
  {
   "property": "C66",
   "status": "proved",
   "theorems": [
    "bytom_segwit_roundtrip",
    "bytom_segwit_accepted_canonical",
    "bytom_bech32_decode_injective",
    "bytom_decode_mixed_case"
   ],
   "note": ""
  },
  {
   "property": "C67",
   "status": "proved",
   "theorems": [
    "address_encode_hashes_first",
    "address_encode_no_rule_collapses",
    "listed_base58_hash_rules"
   ],
   "note": ""
  },
  {
   "property": "C68",
   "status": "proved",
   "theorems": [
    "bech32_profile_ignores_network",
    "bech32_profiles_accept_any_network",
    "listed_bech32_roundtrip"
   ],
   "note": ""
  },
  {
   "property": "C69",
   "status": "proved",
   "theorems": [
    "address_check_complete",
    "address_check_sound",
    "address_check_other_symbols",
    "address_check_empty_panics",
    "nas_contract_rejected",
    "address_check_btc_short_panic"
   ],
   "note": ""
  },
  {
   "property": "C70",
   "status": "proved",
   "theorems": [
    "root_from_seed_iff",
    "bad_seed_refused"
   ],
   "note": ""
  },
  {
   "property": "C71",
   "status": "proved",
   "theorems": [
    "inserted_is_signed_transaction"
   ],
   "note": "Single-key inputs, at most 252 inputs and outputs, redeem scripts of at most 252 bytes."
  },
  {
   "property": "C72",
   "status": "proved",
   "theorems": [
    "verify_checks_only_supplied_keys",
    "readable_checked_as_given",
    "unreadable_rejected"
   ],
   "note": "The signature check is a parameter; the theorem shows that the result depends on the locking scripts only through the hashes."
  },
  {
   "property": "C73",
   "status": "proved",
   "theorems": [
    "multisig_address_pays_key_hash"
   ],
   "note": ""
  },
  {
   "property": "C74",
   "status": "proved",
   "theorems": [
    "message_iff",
    "message_determines_transfer",
    "message_is_never_hashed",
    "combined_transaction_iff",
    "bad_sender_gives_empty_transaction"
   ],
   "note": "The JSON text of the transaction structure is C127 and C128"
  },
  {
   "property": "C75",
   "status": "proved",
   "theorems": [
    "signed_payment_iff",
    "wrong_length_gives_unsigned",
    "bad_key_panics"
   ],
   "note": ""
  },
  {
   "property": "C76",
   "status": "proved",
   "theorems": [
    "combined_iff_verified"
   ],
   "note": ""
  },
  {
   "property": "C77",
   "status": "proved",
   "theorems": [
    "verified_iff_text_signed",
    "sent_is_signed"
   ],
   "note": "the JSON text is C131."
  },
  {
   "property": "C78",
   "status": "proved",
   "theorems": [
    "moac_longer_misread",
    "moac_verify_panics_iff"
   ],
   "note": ""
  },
  {
   "property": "C79",
   "status": "proved",
   "theorems": [
    "filenet_verified_iff",
    "filenet_read_panics_iff"
   ],
   "note": "The largest length accepted by make is a parameter."
  },
  {
   "property": "C80",
   "status": "proved",
   "theorems": [
    "ont_create_panics_iff",
    "ont_signature_count_truncated"
   ],
   "note": ""
  },
  {
   "property": "C81",
   "status": "proved",
   "theorems": [
    "ela_created_iff",
    "ela_create_no_panic",
    "ela_created_read",
    "ela_hashes",
    "ela_ids_ambiguous"
   ],
   "note": "Lists of fewer than 2^56 elements."
  },
  {
   "property": "C82",
   "status": "proved",
   "theorems": [
    "bytom_hash_commits",
    "bytom_version_not_signed"
   ],
   "note": "SHA3-256 is a parameter with 32-byte results."
  },
  {
   "property": "C83",
   "status": "proved",
   "theorems": [
    "bytom_signed",
    "bytom_unsigned_verified",
    "bytom_crashes"
   ],
   "note": "Ed25519 verification is a parameter. Multisignature answers are those whose witness length fits one byte and whose script matches the program."
  },
  {
   "property": "C84",
   "status": "proved",
   "theorems": [
    "bytom_multisig_created",
    "bytom_multisig_padded",
    "bytom_pairs_meaning",
    "bytom_honest_accepted",
    "bytom_multisig_count_wrong",
    "bytom_one_of_many_unreadable"
   ],
   "note": ""
  },
  {
   "property": "C85",
   "status": "proved",
   "theorems": [
    "sign_tx_hash_dispatch",
    "nas_trx_invalid_key"
   ],
   "note": ""
  },
  {
   "property": "C86",
   "status": "proved",
   "theorems": [
    "eos_nonce"
   ],
   "note": "The search loop is modelled with a round budget; the theorem covers every budget."
  },
  {
   "property": "C87",
   "status": "proved",
   "theorems": [
    "fiii_created_iff",
    "fiii_hash_covers"
   ],
   "note": "Double SHA-256, SHA-256 and the current time are parameters; the JSON texts are C129."
  },
  {
   "property": "C88",
   "status": "proved",
   "theorems": [
    "double_blake256_twice"
   ],
   "note": ""
  },
  {
   "property": "C89",
   "status": "proved",
   "theorems": [
    "long_memo_unreadable",
    "refused_destination_dropped",
    "other_kinds_refused"
   ],
   "note": "Exact characterisation of what happens instead of the expected error."
  },
  {
   "property": "C90",
   "status": "proved",
   "theorems": [
    "hc_verify_sound"
   ],
   "note": ""
  },
  {
   "property": "C91",
   "status": "proved",
   "theorems": [
    "hc_vin_list"
   ],
   "note": "The expected property holds up to 252 inputs only; the rest is characterised."
  },
  {
   "property": "C92",
   "status": "proved",
   "theorems": [
    "hc_create_omni_exact"
   ],
   "note": ""
  },
  {
   "property": "C93",
   "status": "proved",
   "theorems": [
    "legacy_verify_iff",
    "vollar_verify_iff"
   ],
   "note": "If and only if, for every text."
  },
  {
   "property": "C94",
   "status": "proved",
   "theorems": [
    "too_many_refused"
   ],
   "note": "Together with the creation theorems, which have no bound on the number of inputs."
  },
  {
   "property": "C95",
   "status": "proved",
   "theorems": [
    "mate_inputs_iff",
    "mate_shows_unique",
    "mate_hashes_iff"
   ],
   "note": "If and only if."
  },
  {
   "property": "C96",
   "status": "proved",
   "theorems": [
    "mate_verify_iff",
    "mate_text_not_checked"
   ],
   "note": "The expected binding does not hold; the exact behaviour is proved."
  },
  {
   "property": "C97",
   "status": "proved",
   "theorems": [
    "mate_lock_scripts",
    "mate_lock_hex_kept"
   ],
   "note": "strings.ReplaceAll and strings.Split are modelled."
  },
  {
   "property": "C98",
   "status": "proved",
   "theorems": [
    "bb_create_iff",
    "bb_read_iff"
   ],
   "note": "If and only if; the wrap of the two counts and the unchecked anchor length are part of the statement."
  },
  {
   "property": "C99",
   "status": "proved",
   "theorems": [
    "bb_address_iff",
    "bb_address_panics_iff",
    "bb_address_unique",
    "bb_address_typos"
   ],
   "note": "Go's encoding/base32 decoder is modelled with its padding and line-break rules."
  },
  {
   "property": "C100",
   "status": "proved",
   "theorems": [
    "bb_combine_iff",
    "bb_flow"
   ],
   "note": "For every hash function and signature scheme; the signing scheme of the flow theorem is assumed to produce valid 64-byte signatures."
  },
  {
   "property": "C101",
   "status": "proved",
   "theorems": [
    "cosmos_document",
    "cosmos_document_binding",
    "cosmos_invalid_text_same"
   ],
   "note": "Go's encoding/json is modelled (GoJson.v) and proved against an independent JSON reader (Json.v)."
  },
  {
   "property": "C102",
   "status": "proved",
   "theorems": [
    "cosmos_build",
    "cosmos_transfer"
   ],
   "note": "Integers are unbounded, which covers Go's 64-bit ones."
  },
  {
   "property": "C103",
   "status": "proved",
   "theorems": [
    "cosmos_sign_iff",
    "cosmos_verify_iff",
    "cosmos_flow"
   ],
   "note": "For every hash function and signature scheme; cosmos_flow assumes a scheme that accepts both s and -s."
  },
  {
   "property": "C104",
   "status": "proved",
   "theorems": [
    "cosmos_request_iff",
    "cosmos_base64_unique"
   ],
   "note": "gjson.ParseBytes is taken to keep the text."
  },
  {
   "property": "C105",
   "status": "proved",
   "theorems": [
    "fork_create_iff",
    "fork_created_read",
    "fork_omni_create_iff"
   ],
   "note": "Up to 252 inputs and outputs (beyond that one-byte counts, as in C31)."
  },
  {
   "property": "C106",
   "status": "proved",
   "theorems": [
    "omni_create_iff",
    "omni_created_read",
    "omni_bech32_refused",
    "omni_created_says"
   ],
   "note": ""
  },
  {
   "property": "C107",
   "status": "proved",
   "theorems": [
    "hc_create_iff",
    "hc_own_addresses_refused"
   ],
   "note": "The expectation that the profile's own addresses can be paid is false; the exact set of accepted addresses is proved."
  },
  {
   "property": "C108",
   "status": "proved",
   "theorems": [
    "cxc_create_iff",
    "cxc_asset_iff"
   ],
   "note": ""
  },
  {
   "property": "C109",
   "status": "proved",
   "theorems": [
    "zen_create_iff",
    "zen_height_read",
    "zen_height_from_2_23"
   ],
   "note": "The height's sign is not handled by the code; what a script reads is proved exactly."
  },
  {
   "property": "C110",
   "status": "proved",
   "theorems": [
    "fork_hashes_iff",
    "shown_cash_decodes",
    "fork_witness_panics",
    "fork_created_unsigned"
   ],
   "note": "Requests with a redeem script of up to 252 bytes (one-byte lengths beyond that)."
  },
  {
   "property": "C111",
   "status": "proved",
   "theorems": [
    "fork_inserted_and_checked"
   ],
   "note": "Single-key inputs."
  },
  {
   "property": "C112",
   "status": "proved",
   "theorems": [
    "cxc_hashes_iff",
    "cxc_inserted_and_checked"
   ],
   "note": "Insertion and check for single-key inputs."
  },
  {
   "property": "C113",
   "status": "proved",
   "theorems": [
    "zen_hashes_iff",
    "zen_inserted_and_checked"
   ],
   "note": ""
  },
  {
   "property": "C114",
   "status": "proved",
   "theorems": [
    "like_create_iff",
    "like_create_no_bech32",
    "like_created_decodes"
   ],
   "note": "Exact characterisation; the users' expectation that tb1 addresses work is refuted by like_create_no_bech32."
  },
  {
   "property": "C115",
   "status": "proved",
   "theorems": [
    "like_decode_plain",
    "like_decode_flag",
    "like_decode_marked",
    "like_decode_marked_panics",
    "like_decode_witness",
    "like_witness_short_panics"
   ],
   "note": "Exact language and exact panics for every byte string."
  },
  {
   "property": "C116",
   "status": "proved",
   "theorems": [
    "like_hashes_iff",
    "like_hashes_panic_iff",
    "like_hashes_again"
   ],
   "note": "Double SHA-256 is a parameter."
  },
  {
   "property": "C117",
   "status": "proved",
   "theorems": [
    "like_insert_iff",
    "like_insert_key_refused",
    "like_insert_after_hashes",
    "like_insert_uses_up"
   ],
   "note": "Exact characterisation; the expectation that the documented call order gives a standard native segwit transaction is refuted by like_insert_after_hashes."
  },
  {
   "property": "C118",
   "status": "proved",
   "theorems": [
    "like_verify_iff",
    "like_round_trip",
    "like_verify_panics",
    "like_verify_after_insert_panics"
   ],
   "note": "The signature check and key decompression are parameters. The round trip assumes that decompression never gives an empty key and leaves out the signatures the in-place append of the decoder spoils (C28). Exactly when checking crashes is C156."
  },
  {
   "property": "C119",
   "status": "proved",
   "theorems": [
    "like_sign_raw_iff",
    "like_sign_two_segwit",
    "like_sign_one_segwit",
    "like_sign_verified"
   ],
   "note": "Signing is a parameter that gives 64-byte signatures without zero integers and compressed keys. Redeem scripts ending with CHECKMULTISIG are left out."
  },
  {
   "property": "C120",
   "status": "proved",
   "theorems": [
    "like_multisig_iff",
    "like_multisig_pays",
    "like_multi_insert",
    "like_multi_witness_iff",
    "like_multi_refused"
   ],
   "note": "Exact characterisation; the expectation that any m-of-n can be spent and verified is refuted by like_multi_witness_iff and like_multi_refused. Hashes are parameters; 64-byte signatures without zero integers."
  },
  {
   "property": "C121",
   "status": "proved",
   "theorems": [
    "get_txid_history",
    "get_txid_corrupts",
    "get_txid_of_created"
   ],
   "note": "The users' expectation that GetTxID is an observer is false; the exact effect of every history is proved. Input scripts of at most 252 bytes."
  },
  {
   "property": "C122",
   "status": "proved",
   "theorems": [
    "many_inserted_is_signed_transaction",
    "many_witness_iff"
   ],
   "note": "BtcManyProps.v. Redeem scripts up to 252 bytes, as in C34."
  },
  {
   "property": "C123",
   "status": "proved",
   "theorems": [
    "many_verified_iff_valid"
   ],
   "note": "BtcManyProps.v. Signatures that the decoder cannot read back (C28) and legacy scripts of at most 108 bytes are outside the statement."
  },
  {
   "property": "C124",
   "status": "proved",
   "theorems": [
    "binance_create_iff",
    "binance_sign_iff"
   ],
   "note": "the SDK's functions (bech32 decoding, the sign document) are parameters"
  },
  {
   "property": "C125",
   "status": "proved",
   "theorems": [
    "binance_combine_iff",
    "binance_combine_crash_iff",
    "binance_chain_ignored",
    "binance_flow"
   ],
   "note": "the SDK's functions are parameters; the flow theorem assumes that the SDK reads its own document back"
  },
  {
   "property": "C126",
   "status": "proved",
   "theorems": [
    "base58_alphabet_crash_iff",
    "base58_custom_alphabet_iff"
   ],
   "note": "Base58AlphaProps.v"
  },
  {
   "property": "C127",
   "status": "proved",
   "theorems": [
    "polkadot_json_round_trip",
    "polkadot_json_accepted_iff",
    "polkadot_json_last_member"
   ],
   "note": "Stated with the grammar of JsonGrammar.v (RFC 8259); Go's JSON reader is modelled in GoUnjson.v and proved to read exactly that grammar (C132); nesting deeper than Go's limit of 10000 is not refused by the model."
  },
  {
   "property": "C128",
   "status": "proved",
   "theorems": [
    "polkadot_created_text_combines",
    "polkadot_text_flow"
   ],
   "note": "ed25519 is a parameter."
  },
  {
   "property": "C129",
   "status": "proved",
   "theorems": [
    "fiii_json_round_trip",
    "fiii_created_text_combines",
    "fiii_text_flow"
   ],
   "note": "Fewer than 2^32 inputs and outputs, so that the counts and sizes fit Go's int. ed25519 and SHA-256 are parameters."
  },
  {
   "property": "C130",
   "status": "proved",
   "theorems": [
    "filenet_text_iff",
    "filenet_text_flow"
   ],
   "note": "secp256k1 and SHA-256 are parameters; what the text says is defined by the grammar of JsonGrammar.v (RFC 8259)."
  },
  {
   "property": "C131",
   "status": "proved",
   "theorems": [
    "vsys_text_iff",
    "vsys_text_flow",
    "vsys_attachment_unsendable"
   ],
   "note": "The signature scheme and the hash are parameters; what the text says is defined by the grammar of JsonGrammar.v (RFC 8259); gjson, which wraps the text, is not modelled."
  },
  {
   "property": "C132",
   "status": "proved",
   "theorems": [
    "unjson_iff_json",
    "json_meaning_unique",
    "polkadot_not_json_refused",
    "fiii_not_json_refused",
    "polkadot_same_meaning",
    "fiii_same_meaning",
    "polkadot_member_order"
   ],
   "note": "Grammar in JsonGrammar.v, written without the reader; bytes that are not UTF-8 and unpaired surrogates stand for U+FFFD as encoding/json documents. Nesting deeper than Go's limit of 10000 is not refused by the model."
  },
  {
   "property": "C133",
   "status": "proved",
   "theorems": [
    "like_decode_leaves_plain",
    "like_decode_leaves",
    "like_decode_twice"
   ],
   "note": "The users' expectation that decoding is read-only is false; the exact effect is proved. What a call that fails leaves behind is not modelled."
  },
  {
   "property": "C134",
   "status": "proved",
   "theorems": [
    "data_checksum",
    "data_unknown_rule",
    "data_decode_iff",
    "data_decode_crash_iff",
    "data_round_trip",
    "data_other_encoding"
   ],
   "note": "Hash functions are parameters with 32-byte (20-byte for RIPEMD-160) results; base58 alphabets are assumed well formed as in C01."
  },
  {
   "property": "C135",
   "status": "proved",
   "theorems": [
    "btc_decode_iff",
    "btc_decode_panics_iff",
    "btc_decode_marked_injective",
    "btc_decode_two_texts"
   ],
   "note": "If and only if, for every byte string. The panics are those of a slice without spare capacity; with spare capacity the first two kinds of text are read beyond the end and refused at the next length check."
  },
  {
   "property": "C136",
   "status": "proved",
   "theorems": [
    "bytom_decode_iff",
    "bytom_decode_panics_iff",
    "bytom_same_shown_iff"
   ],
   "note": ""
  },
  {
   "property": "C137",
   "status": "proved",
   "theorems": [
    "ont_decode_iff",
    "ont_decode_never_panics",
    "ont_decode_injective"
   ],
   "note": "The expected rejection of one signature is in C48."
  },
  {
   "property": "C138",
   "status": "proved",
   "theorems": [
    "moac_signed_iff"
   ],
   "note": "The panics are in C78."
  },
  {
   "property": "C139",
   "status": "proved",
   "theorems": [
    "uni_bech32m_text_iff",
    "chia_decode_iff",
    "chia_decode_nothing_iff",
    "chia_decode_never_panics",
    "chia_roundtrip_iff",
    "ascii_address_decode"
   ],
   "note": "unicode.ToLower and ToUpper are any functions that meet the stated facts of the Unicode tables."
  },
  {
   "property": "C140",
   "status": "proved",
   "theorems": [
    "uni_registry_first_wins",
    "default_signer_iff",
    "uni_sign_tx_hash_cases",
    "ascii_registry"
   ],
   "note": "unicode.ToUpper and SimpleFold are any functions that meet the stated facts of the Unicode tables."
  },
  {
   "property": "C141",
   "status": "proved",
   "theorems": [
    "wicc_combine_iff",
    "wicc_combine_panics_iff",
    "wicc_combine_outcomes",
    "wicc_short_signature_panics",
    "wicc_any_signature_panics_iff",
    "wicc_any_signature_accepted_iff",
    "wicc_any_signature_combined_iff",
    "wicc_other_sizes_combined"
   ],
   "note": "Slicing a signature is modelled without spare capacity."
  },
  {
   "property": "C142",
   "status": "proved",
   "theorems": [
    "xrp_combine_iff",
    "xrp_combine_panics_iff",
    "text_splits_uniquely",
    "xrp_no_marker_unsigned",
    "xrp_one_marker"
   ],
   "note": "The expectation that an unsigned text is refused does not hold."
  },
  {
   "property": "C143",
   "status": "proved",
   "theorems": [
    "hc_combine_iff",
    "hc_combine_panics_iff",
    "hc_script_is_der"
   ],
   "note": "Slicing a signature is modelled without spare capacity."
  },
  {
   "property": "C144",
   "status": "proved",
   "theorems": [
    "ont_text_combine_iff",
    "ont_text_combine_panics_iff",
    "ont_old_signature_unchecked"
   ],
   "note": "The expectation that the given signatures are in the result holds for unsigned transactions only."
  },
  {
   "property": "C145",
   "status": "proved",
   "theorems": [
    "base64_decode_result",
    "base64_decode_panics_iff",
    "base64_decode_accepts_iff",
    "base64_decode_enough",
    "base64_alphabets",
    "base64_digit_distinct"
   ],
   "note": "On a machine with 64-bit integers."
  },
  {
   "property": "C146",
   "status": "proved",
   "theorems": [
    "fiii_json_accepted_iff",
    "fiii_json_reading",
    "fiii_json_null",
    "fiii_json_determined",
    "fiii_member_order",
    "fiii_combine_text_iff",
    "fiii_combined_text_reads"
   ],
   "note": "encoding/json's reader is modelled in GoUnjson.v, with the way it fills a slice that already has elements. Nesting deeper than 10000 is not refused by the model. Reading the result back assumes that its numbers fit 64 bits and its texts are UTF-8 (tx_typed)."
  },
  {
   "property": "C147",
   "status": "proved",
   "theorems": [
    "verge_script_panics_iff",
    "legacy_panics_iff",
    "aliencoin_panics_iff",
    "verge_panics_iff",
    "vollar_panics_iff",
    "alien_any_script_panics_iff"
   ],
   "note": "A slice has no spare capacity in the model, so that sig[:32] of a shorter signature panics. PointDecompress and Verify are parameters; a key that cannot be expanded is one for which PointDecompress returns nothing."
  },
  {
   "property": "C148",
   "status": "proved",
   "theorems": [
    "network_pays",
    "fork_network_pays",
    "cxc_network_pays",
    "foreign_address_stops_creation",
    "longer_hrp_paid",
    "foreign_hrp_refused",
    "horizen_pays",
    "zcash_pays_no_base58",
    "fork_zcash_pays"
   ],
   "note": "Stated for one output; creation of several outputs is C30, C105-C109. The specification lists the published version bytes and human-readable parts as literals."
  },
  {
   "property": "C149",
   "status": "proved",
   "theorems": [
    "bech32_decodes_exactly",
    "bech32_crashes_exactly",
    "bech32_refuses_exactly",
    "bech32_capitals_refused"
   ],
   "note": "Bech32DecSpec.v is the specification: character classes, division of the text, the BIP 173 register as arithmetic, value of the digits."
  },
  {
   "property": "C150",
   "status": "proved",
   "theorems": [
    "btc_creation_crashes_exactly",
    "fork_creation_crashes_exactly",
    "both_creation_crashes_exactly",
    "zen_creation_crashes_exactly",
    "hashing_crashes_exactly",
    "fork_hashing_crashes",
    "zen_hashing_crashes",
    "btc_insertion_crashes_exactly",
    "fam_insertion_crashes_exactly"
   ],
   "note": "omniTransaction and hcTransaction hash and insert with the code of btcTransaction. For bitcoincash, bitcoinsv and zencash hashing the additional cause is shown to be necessary here; exactly when it crashes is C158. Creation with Omni or asset payloads is C159."
  },
  {
   "property": "C151",
   "status": "proved",
   "theorems": [
    "btc_check_crashes_exactly",
    "fam_check_crashes_exactly",
    "sound_keys_never_crash_check",
    "unsigned_check_crashes"
   ],
   "note": "Shared-key inputs and requests are the subject of C155. bitcoincash and bitcoinsv are stated without native witness scripts to be unlocked (which crash hashing, C150), zencash with locking scripts of at least 23 bytes. PointDecompress and Verify are parameters."
  },
  {
   "property": "C152",
   "status": "proved",
   "theorems": [
    "like_creation_crashes_exactly",
    "like_insertion_crashes_exactly"
   ],
   "note": "The texts that crash the decoder are those of like_decode_marked_panics and like_decode_plain. Hashing and signing are C157, checking is C156."
  },
  {
   "property": "C153",
   "status": "proved",
   "theorems": [
    "ripple_creation_never_crashes",
    "waykichain_creation_never_crashes",
    "filenet_creation_never_crashes",
    "moac_creation_crashes_exactly",
    "vsys_creation_crashes_exactly",
    "bigbang_creation_crashes_exactly",
    "cosmos_creation_crashes_exactly",
    "hypercash_creation_crashes_exactly",
    "hypercash_omni_creation_crashes_exactly",
    "fiiicoin_creation_crashes_exactly",
    "polkadot_never_crashes",
    "mateverse_combining_crashes_exactly"
   ],
   "note": "Arguments are in the range of their Go types and pointers other than the Cosmos fee are not nil. SHA-512 gives at least 32 bytes (Ripple). FileNet's sort is a parameter whose result holds byte texts."
  },
  {
   "property": "C154",
   "status": "proved",
   "theorems": [
    "bytom_creation_crashes_exactly",
    "bytom_hashing_crashes_exactly",
    "bytom_insertion_crashes_exactly",
    "bytom_verification_crashes_exactly",
    "bytom_multisig_never_crashes"
   ],
   "note": "The unended texts are those of C136. The hash function of a multisignature address is assumed to return bytes."
  },
  {
   "property": "C155",
   "status": "proved",
   "theorems": [
    "btc_any_check_crashes_exactly",
    "fam_any_check_crashes_exactly",
    "sound_keys_crash_only_on_mismatch",
    "single_for_shared_crashes",
    "shared_for_single_crashes",
    "unsigned_any_check_crashes"
   ],
   "note": "The last four are stated for btcTransaction. How signatures at the start of a shared script are read is that of signature_script_accepts_exactly (C28); PointDecompress and Verify are parameters."
  },
  {
   "property": "C156",
   "status": "proved",
   "theorems": [
    "like_check_crashes_exactly",
    "like_check_plain_safe",
    "missing_witness_crashes"
   ],
   "note": "When decoding itself crashes is C115 (like_decode_marked_panics; never without the marker: like_decode_plain). The hash functions, key decompression and the signature check are parameters."
  },
  {
   "property": "C157",
   "status": "proved",
   "theorems": [
    "like_hashing_crashes_exactly",
    "like_signing_crashes_exactly",
    "like_hash_signing_never_crashes"
   ],
   "note": "The hash functions and the signature function are parameters. When decoding itself crashes is C115."
  },
  {
   "property": "C158",
   "status": "proved",
   "theorems": [
    "fork_hashing_crashes_exactly",
    "zen_hashing_crashes_exactly"
   ],
   "note": "The texts whose bytes crash the reader are those of C135. The hash function is a parameter that gives at least four bytes."
  },
  {
   "property": "C159",
   "status": "proved",
   "theorems": [
    "fork_omni_creation_crashes_exactly",
    "omni_creation_crashes_exactly",
    "asset_creation_crashes_exactly"
   ],
   "note": "Creation without tokens is C150. The hash function is a parameter that gives at least four bytes."
  },
  {
   "property": "C160",
   "status": "proved",
   "theorems": [
    "any_signature_script",
    "any_input_script",
    "any_other_script",
    "trimmed_number"
   ],
   "note": "When the encoders of Verge, Vollar and Aliencoin panic is in C147. A slice has no spare capacity in the model, so that sig[:32] of a shorter signature panics."
  }
 ]
}