{"id": "C01", "title": "Base58 decoding inverts Base58 encoding", "statement": "For every byte string b (any length, any number of leading zero bytes), Base58Decode(Base58Encode(b)) returns exactly b and no error, for every alphabet of 58 distinct ASCII characters (other characters: C126).", "quantifier": "all byte strings, all alphabets of 58 distinct ASCII symbols", "why_tests_cant": "The encoder sizes its buffer with len*138/100+1 and the decoder with len*733/1000+1; only an argument over every length shows that the truncating estimates are always big enough and that the in-place carry loops never lose a digit.", "anchors": ["addressEncoder/base58.go: Base58Encode, Base58Decode, NewBase58Alphabet; owkeychain/base58.go; btcTransaction/base58.go and the 17 further per-coin copies: Encode, Decode"]}
{"id": "C02", "title": "Base58 text is canonical", "statement": "If Base58Decode(s) returns bytes b without error then Base58Encode(b) = s. Consequently two different strings never decode to the same bytes, so an address has exactly one textual form.", "quantifier": "all rune strings accepted by the decoder", "why_tests_cant": "Injectivity relates every pair of inputs; a test only compares the pairs it lists.", "anchors": ["addressEncoder/base58.go: Base58Encode, Base58Decode, NewBase58Alphabet; owkeychain/base58.go; btcTransaction/base58.go and the 17 further per-coin copies: Encode, Decode"]}
{"id": "C03", "title": "Base58 never crashes and rejects exactly the foreign characters", "statement": "Base58Encode never indexes outside its buffers for any input, and Base58Decode never does either; Base58Decode returns the error ErrorInvalidBase58String if and only if some character of the input is not in the alphabet.", "quantifier": "all byte strings and all rune strings", "why_tests_cant": "An out-of-range index would occur only for particular lengths and digit patterns near the capacity estimate; the set of inputs is unbounded.", "anchors": ["addressEncoder/base58.go: Base58Encode, Base58Decode, NewBase58Alphabet; owkeychain/base58.go; btcTransaction/base58.go and the 17 further per-coin copies: Encode, Decode"]}
{"id": "C04", "title": "Base58 preserves the big-endian number and the leading zeros", "statement": "The string produced by Base58Encode(b) consists of as many zero-symbols as b has leading zero bytes followed by the base-58 digits, most significant first and without a leading zero digit, of the number that b denotes big-endian.", "quantifier": "all byte strings", "why_tests_cant": "This is functional correctness against the mathematical positional notation, not against example vectors.", "anchors": ["addressEncoder/base58.go: Base58Encode, Base58Decode, NewBase58Alphabet; owkeychain/base58.go; btcTransaction/base58.go and the 17 further per-coin copies: Encode, Decode"]}
{"id": "C05", "title": "Base58Check round trip for addresses", "statement": "DecodeCheck(EncodeCheck(prefix, hash)) returns (prefix, hash) and no error, for every prefix and every 20-byte hash, whatever the checksum hash function is (as long as it yields at least 4 bytes). The single-byte-prefix variant (ontology, verge, aliencoin, btcLikeTxDriver) does so for every hash length.", "quantifier": "all prefixes, all hashes, all checksum hash functions", "why_tests_cant": "Quantifies over the hash function and all payloads.", "anchors": ["btcTransaction/base58.go: DecodeCheck, EncodeCheck", "ontologyTransaction/base58.go, vergeTransaction/base58.go, aliencoinTransaction/base58.go, btcLikeTxDriver/base58.go, hypercashTransaction/base58.go: DecodeCheck, EncodeCheck"]}
{"id": "C06", "title": "Base58Check accepts nothing but well-checksummed text, and crashes on short text", "statement": "Whenever DecodeCheck succeeds, the input is exactly EncodeCheck of the returned prefix and hash (so a mistyped address is accepted only when the checksum function collides on 4 bytes). DecodeCheck panics exactly when the text decodes to fewer than 4 bytes, or has a correct checksum and fewer than 24 bytes; every other input gives a value or an error.", "quantifier": "all strings, all checksum hash functions", "why_tests_cant": "Soundness is a statement about every accepted string; the panic set is an exact characterisation.", "anchors": ["btcTransaction/base58.go: DecodeCheck"]}
{"id": "C07", "title": "Program-hash extraction is total and strict", "statement": "GetProgramHashFromAddress (elastos, ripple, waykichain) never panics and succeeds only on strings that decode to 25 bytes with the coin's prefix byte and a correct checksum; it returns the 20-byte hash (elastos: prefix and hash), and re-encoding the result gives the input back.", "quantifier": "all strings, all checksum hash functions", "why_tests_cant": "Totality and soundness over an infinite input set.", "anchors": ["elastosTransaction/base58.go: GetProgramHashFromAddress", "rippleTransaction/base58.go: GetProgramHashFromAddress", "waykichainTransaction/base58.go: GetProgramHashFromAddress"]}
{"id": "C08", "title": "Base58 address types round-trip through AddressEncode/AddressDecode", "statement": "For every address profile of the base58 kind (with its prefix, suffix, checksum rule), AddressDecode(AddressEncode(hash, T), T) returns the hash and no error for every hash of the profile's length, for every checksum hash function.", "quantifier": "all hashes of the profile length, all prefixes/suffixes, all checksum rules, all hash functions", "why_tests_cant": "Depends on the interplay of prefix, suffix and checksum stripping for all payload contents.", "anchors": ["addressEncoder/addressEncoder.go: AddressEncode, AddressDecode, calcChecksum, verifyChecksum, catData, recoverData, encodeData, decodeData", "addressEncoder/encoderProfile.go: AddressType table"]}
{"id": "C09", "title": "Accepted base58 addresses are exactly the encoder's outputs", "statement": "If AddressDecode(s, T) succeeds for a base58 profile with a known checksum rule then s = AddressEncode(result, T) and the result has the profile's length, so an address with a wrong prefix, suffix, length or checksum is never accepted and no two texts decode to the same hash. Rejection is an error except in one exactly described case, a correctly checksummed text whose body is shorter than the version bytes require, which makes AddressDecode panic.", "quantifier": "all strings, all base58 profiles, all hash functions", "why_tests_cant": "Soundness over all strings.", "anchors": ["addressEncoder/addressEncoder.go: AddressDecode, recoverData, verifyChecksum"]}
{"id": "C10", "title": "Bech32 payload packing round-trips", "statement": "Regrouping a byte string into 5-bit groups and back (as AddressEncode/AddressDecode do for bech32 profiles) returns the original 20-byte hash both with and without a witness-version prefix, and the original 32-byte hash with a prefix; for a 32-byte hash without a version prefix it does NOT return the hash.", "quantifier": "all payload contents of the stated lengths", "why_tests_cant": "The regrouping code is bit-level and length-dependent; correctness must hold for every bit pattern.", "anchors": ["addressEncoder/bech32/bech32.go: Encode, Decode", "btcTransaction/bech32.go: Bech32Encode, Bech32Decode"]}
{"id": "C11", "title": "Every produced bech32 string carries a valid checksum, and up to four wrong characters are always detected", "statement": "The checksum appended by the bech32 encoder makes the BIP173 polynomial check succeed for every prefix and payload; replacing between one and four data characters (of at most 89 data characters) of an accepted string by other characters of the alphabet makes the decoder reject it.", "quantifier": "all prefixes, all payloads, all error positions and values", "why_tests_cant": "The number of (payload, position, value) combinations is astronomically large; detection is an algebraic fact.", "anchors": ["addressEncoder/bech32/bech32.go: polymod, createChecksum, verifyChecksum", "btcTransaction/bech32.go", "bytomTransaction/bech32.go"]}
{"id": "C12", "title": "Bitcoin-Cash address encoding: round trip up to the version shift, and which strings skip the checksum", "statement": "For a 21-byte payload whose first byte is a version, decoding the produced cash address returns the 20 hash bytes unchanged and a first byte equal to the original version shifted left by three bits. With the exact lower-case prefix, one to four wrong characters (of at most 89) are always rejected. The checksum is verified only then: with another prefix, in upper case, or without prefix, the result does not depend on the last eight characters, and short strings make the decoder panic.", "quantifier": "all payloads; all strings over the bech32 alphabet", "why_tests_cant": "Universal round trip plus a universal statement about unchecked inputs.", "anchors": ["addressEncoder/base32PolyMod/base32PolyMod.go: Encode, Decode"]}
{"id": "C13", "title": "Bech32m round trip and silent acceptance of mismatches", "statement": "Bech32mDecode(Bech32mEncode(hrp,data)) gives the data back for every lower-case hrp and byte payload whose text has at most 90 characters. When the hrp differs from the requested one, or the text carries a plain bech32 checksum, Bech32mDecode returns no data and also no error.", "quantifier": "all hrps, all payloads", "why_tests_cant": "Universal over payloads; the swallowed error is a universal statement about a class of inputs.", "anchors": ["addressEncoder/bech32m/bech32m.go: Encode, Decode, Convertbits, Bech32mEncode, Bech32mDecode"]}
{"id": "C14", "title": "Bit regrouping is lossless", "statement": "Convertbits(8->5, padded) followed by Convertbits(5->8, unpadded) returns the original bytes for every byte string; 5->8 conversion rejects non-zero padding and groups of more than 4 spare bits, so distinct accepted 5-bit strings give distinct bytes.", "quantifier": "all byte strings / all 5-bit strings", "why_tests_cant": "Bit accumulator arithmetic over unbounded strings.", "anchors": ["addressEncoder/bech32m/bech32m.go: Convertbits", "bytomTransaction/bech32.go: ConvertBits"]}
{"id": "C15", "title": "Hex-style addresses round-trip", "statement": "For the Ethereum profile AddressEncode of 32 bytes prints the last 20 bytes as 40 lower-case hexadecimal digits without 0x (a 20-byte account is hashed first instead of printed); AddressDecode accepts exactly 40 hexadecimal digits of either case with or without 0x, so no EIP-55 checksum is checked, and panics exactly on texts of fewer than two characters. For ICON, encoding 20 bytes gives hx and 40 digits; decoding accepts exactly hx and 40 digits of either case and panics exactly on the empty text and on h.", "quantifier": "all 20-byte hashes; all strings", "why_tests_cant": "Universal; depends on the case-folding rule for all hash values.", "anchors": ["addressEncoder/eip55/eip55.go: Eip55_encode, Eip55_decode", "addressEncoder/addressEncoder.go: ICX branch"]}
{"id": "C16", "title": "EOS and Aeternity key strings round-trip", "statement": "Decoding the string produced for an EOS public key or an Aeternity key returns the key bytes for every key and every checksum hash; EOS decoding accepts the three prefixes EOS, PUB_K1_ and PUB_R1_ with the same body; neither decoder checks the length of the key.", "quantifier": "all key byte strings, all hash functions", "why_tests_cant": "Universal over keys and hash functions.", "anchors": ["addressEncoder/eos.go: encodeEOS, decodeEOS", "addressEncoder/aeternity.go: encodeAE, decodeAE"]}
{"id": "C17", "title": "Monero block-wise base58 round-trips", "statement": "For every Monero profile AddressEncode of a 64-byte (72-byte with payment id) payload gives the block-wise base58 text (8 bytes on 11 characters, the last 5 bytes on 7) of version byte, payload and four Keccak-256 bytes, and AddressDecode gives the payload back; AddressDecode accepts exactly the texts whose groups read (modulo 2^64 resp. 2^40) to such a message, so every address has a second, different text that decodes to the same payload.", "quantifier": "all messages of the two lengths", "why_tests_cant": "The padding of short blocks depends on the numeric value of each block; all values must be covered.", "anchors": ["addressEncoder/addressEncoder.go: XMR branches", "addressEncoder/base58.go"]}
{"id": "C18", "title": "Table-driven CRC equals the polynomial CRC", "statement": "CRC32 equals the bit-by-bit reflected CRC with polynomial 0xEDB88320 for every message, so it detects every change confined to four consecutive bytes; the CRC-24Q used for BigBang addresses is, for every message, the remainder of the message polynomial times x^24 modulo 0x1864CFB over GF(2).", "quantifier": "all byte strings", "why_tests_cant": "Message length is unbounded.", "anchors": ["addressEncoder/crc32.go: calc_crc32, crc table", "bigbangTransaction/crc24q.go"]}
{"id": "C19", "title": "Base64 profile encoder cannot be used", "statement": "NewEncoding builds an encoding with an empty alphabet: Base64Encode panics on every non-empty input and Base64Decode panics on every input.", "quantifier": "all inputs", "why_tests_cant": "A universal negative statement.", "anchors": ["addressEncoder/base64.go: Base64Encode, Base64Decode, NewEncoding"]}
{"id": "C20", "title": "Extended key text round-trips", "statement": "OWEncode of an extended key followed by OWDecode restores depth, parent fingerprint, child number, chain code, curve type, key bytes and private/public kind, for every field value, for private keys and 25519-family keys of 32 bytes, other public keys of 33 bytes and BLS public keys of 48 bytes. Every text OWDecode accepts is the checked text of the key it returns (so no two different keys share a text), a key shorter than the full length is written as a text that OWDecode refuses, and OWDecode never panics on any string.", "quantifier": "all extended keys and all strings, every checksum hash function", "why_tests_cant": "Universal over every field value; the accepted leading characters depend on the exact total length.", "anchors": ["owkeychain/owencode.go: OWEncode, OWDecode, Base58checkEncode, Base58checkDecode", "owkeychain/extendedkey.go: ExtendedKey"]}
{"id": "C21", "title": "Multi-signature share text round-trips", "statement": "ChainDecode of ChianEncode of a share restores public key, chain code and curve type exactly when the public key has 32 bytes, or 33 bytes of which the first is not zero; a 33-byte key starting with zero comes back without the zero, other lengths (such as 48-byte BLS keys) give a text that cannot be decoded. ChainDecode accepts only texts ChianEncode produces, and never panics. GetMultiSigShareData of a public key's text gives the share with that key, chain code and curve type.", "quantifier": "all shares, all strings", "why_tests_cant": "Universal over every field value.", "anchors": ["owkeychain/multisig.go: ChianEncode, ChainDecode, GetMultiSigShareData"]}
{"id": "C22", "title": "Public derivation agrees with private derivation", "statement": "For every parent key and every non-hardened index, deriving the child from the private parent and then taking its public key gives the same public key, chain code, depth, fingerprint and index as deriving the child from the parent's public key - provided the private child scalar is stored on full 32 bytes.", "quantifier": "all parents, all non-hardened indices, every elliptic-curve group and HMAC function satisfying the group laws", "why_tests_cant": "An algebraic law over an arbitrary group.", "anchors": ["owkeychain/extendedkey.go: GenPrivateChild, GenPublicChild, getPriChildViaPriParent, getPubChildViaPubParent"]}
{"id": "C23", "title": "Derivation rules: hardened, private-from-public, depth", "statement": "No private child is ever derived from a public key and no hardened child from a public key; deriving privately at depth 255 is refused. Public derivation from a public key has no depth check: at depth 255 it wraps the depth to 0.", "quantifier": "all keys, indices, depths; all derivation histories", "why_tests_cant": "Invariant over arbitrary derivation histories.", "anchors": ["owkeychain/extendedkey.go: GenPrivateChild, GenPublicChild"]}
{"id": "C24", "title": "Length of derived private keys", "statement": "The derived secp256k1-style private child key is 32 bytes if and only if the child scalar has at most one leading zero byte; with k>=2 leading zero bytes only ceil(k/2) of them are restored, so the key is shorter.", "quantifier": "all parents and indices (all child scalars)", "why_tests_cant": "The failing inputs have probability 2^-16 per derivation; the statement is exact for all scalars.", "anchors": ["owkeychain/extendedkey.go: getPriChildViaPriParent"]}
{"id": "C25", "title": "Derivation paths select the documented child indices", "statement": "For every list of indices below 2^31 with hardening marks, the textual path m/i/j'/... makes the key derivation use exactly the sequence of child numbers i, j+2^31, ... starting from the root; root aliases m, / and the empty path denote the root key. Indices of 2^31 and above wrap around silently.", "quantifier": "all paths", "why_tests_cant": "Unbounded path length and all index values.", "anchors": ["owkeychain/hdkey.go: DerivedPrivateKeyWithPath / DerivedPublicKeyFromPath", "owkeychain/hdprofile.go"]}
{"id": "C26", "title": "Signature normalisation gives the low-S form", "statement": "For every 64-byte signature with s below the secp256k1 order, the normalised signature keeps r, and its s is the smaller of s and n-s; s at most n/2 is returned unchanged; normalisation is idempotent.", "quantifier": "all signatures", "why_tests_cant": "Universal arithmetic fact on 256-bit integers with a boundary at n/2.", "anchors": ["btcTransaction/SignaturePubkey.go: serilizeS", "15 further copies: signatureSet/signature.go, rippleTransaction, ontologyTransaction, waykichainTransaction, cosmosTransaction, mateverseTransaction, hypercashTransaction, aliencoinTransaction, ..."]}
{"id": "C27", "title": "Length of a normalised signature", "statement": "The normalised signature is 64 bytes whenever n-s has at most one leading zero byte; with k>=2 leading zero bytes in n-s it is 64-floor(k/2) bytes long and the numeric value of its tail is still n-s. Callers that drop the return value (mateverse, hypercash) and rely on in-place update get a corrupted s in that case.", "quantifier": "all signatures", "why_tests_cant": "The failing set has measure 2^-16; the exact length law is for all inputs.", "anchors": ["btcTransaction/SignaturePubkey.go: serilizeS", "mateverseTransaction/transaction.go: SignTransaction", "hypercashTransaction/transaction.go: SignTransaction"]}
{"id": "C28", "title": "DER signature scripts are minimal; which of them are read back", "statement": "For every 64-byte signature with non-zero r and s and every 33-byte public key the script holds both integers in minimal non-negative DER form; if r or s is zero the encoder panics. Parsing the script gives back signature, public key and hash type whenever r < 2^247 or s >= 2^231. For the other signatures the parser overwrites the first 30 - |s| bytes after the signature (|s| the DER length of s) with the last bytes of s before it reads them, so the script comes back exactly when these bytes happen to agree; the signature itself is never changed. The parsers never panic and accept exactly the scripts whose lengths agree, whose integers have at most 33 bytes (33 only with a zero first byte or a high second byte) and whose remaining bytes, after that overwriting, are a type, the length 33 and a key; every signature also has a second, non-minimal script that parses to it. The btcLikeTxDriver witness form round-trips for every signature but is minimal exactly when neither half starts with a removable zero byte.", "quantifier": "all signatures, keys and hash types", "why_tests_cant": "The stripping loops depend on the number of leading zero bytes and the top bit; all combinations must work.", "anchors": ["btcTransaction/SignaturePubkey.go: encodeSignatureToScript, encodeToScript, decodeFromScriptBytes, decodeSignatureFromScript", "btcLikeTxDriver/signaturepubkey.go", "vergeTransaction/txSigPub.go, vollarTransaction/txSigPub.go, mateverseTransaction/txSigPub.go, hypercashTransaction/txSignature.go"]}
{"id": "C29", "title": "Aliencoin DER encoding corrupts some signatures", "statement": "The aliencoin signature encoder strips r[i] instead of r[0]: it produces a valid minimal encoding when the first byte is between 1 and 255, and otherwise removes one byte for every zero among bytes 0, 2, 4, ... before the first non-zero one of these (panicking when all sixteen are zero). Reading the script back gives the signature with the removed bytes as zeros; when r lost no byte and s lost more than two, the bytes after the signature are overwritten as in C28. The signature, key and type survive exactly when all removed bytes were zero and the overwritten bytes agree.", "quantifier": "all signatures", "why_tests_cant": "Exact characterisation over all inputs; a random test hits a leading zero byte with probability 1/256.", "anchors": ["aliencoinTransaction/txSigPub.go: SigPub.ToBytes"]}
{"id": "C30", "title": "Unsigned Bitcoin transactions round-trip", "statement": "Creation succeeds exactly when both lists are non-empty, every id is the hex of 32 bytes and every address has a script. For every such list of at most 255 inputs and at most 255 outputs, DecodeRawTransaction of the hex produced by CreateEmptyRawTransaction recovers the version, each id, vout, sequence, each amount and locking script, and the lock time, in order; and nothing else is accepted as the end of the transaction.", "quantifier": "all inputs, outputs, lock times, replaceable flags", "why_tests_cant": "Unbounded lists and all field values.", "anchors": ["btcTransaction/txStruct.go: newEmptyTransaction, encodeToBytes, DecodeRawTransaction", "btcTransaction/transaction.go: CreateEmptyRawTransaction"]}
{"id": "C31", "title": "Input and output counts are truncated to one byte", "statement": "The serialiser writes counts modulo 256: a transaction with 256 inputs is written with count 0 and can never be decoded to the same transaction; counts 253..255 are written as a raw byte although Bitcoin reserves those values for longer counts.", "quantifier": "all transactions with more than 252 inputs or outputs", "why_tests_cant": "Requires unusually large transactions; the statement covers all of them.", "anchors": ["btcTransaction/txStruct.go: encodeToBytes"]}
{"id": "C32", "title": "Outputs pay to the address given", "statement": "For every base58 address of the coin, the created output's locking script is the standard pay-to-pubkey-hash script of the decoded hash for the P2PKH prefix, the pay-to-script-hash script for the P2SH prefixes, and an error for every other prefix; the amount is the requested amount, little-endian. A bech32 address with the coin's prefix pays to the version 0 witness program of its data whatever version it states; with the Zcash tables (empty bech32 prefix) no base58 address can be paid at all.", "quantifier": "all addresses, amounts, checksum functions", "why_tests_cant": "Funds go to whatever this mapping says, for all addresses.", "anchors": ["btcTransaction/txOut.go: newTxOutForEmptyTrans"]}
{"id": "C33", "title": "Sequence numbers follow lock time and replaceability", "statement": "Every input of a created transaction has sequence 0xFFFFFFFD if replaceable, else 0xFFFFFFFE if the lock time is non-zero, else 0xFFFFFFFF.", "quantifier": "all transactions", "why_tests_cant": "Universal over inputs and flags.", "anchors": ["btcTransaction/txIn.go: setSequence", "btcTransaction/txStruct.go: newEmptyTransaction"]}
{"id": "C34", "title": "Legacy signature hash commits to the whole transaction", "statement": "The byte string hashed for a P2PKH input i is the serialisation of the transaction with input i's script replaced by the spent locking script, all other input scripts empty, followed by the 4-byte hash type; two different transactions (or two different input positions) with the same script never give the same byte string.", "quantifier": "all transactions and positions", "why_tests_cant": "Injectivity of the preimage over all pairs of transactions.", "anchors": ["btcTransaction/txHash.go: getHashesForSig, getBytesForSig"]}
{"id": "C35", "title": "Segwit signature hash follows BIP143", "statement": "For segwit inputs the hashed byte string is version, hash of all outpoints, hash of all sequences, outpoint, script code, amount, sequence, hash of all outputs, lock time and hash type, in this order, for every transaction and position, as long as the script is at most 252 bytes long; a longer multisig script is hashed with a one-byte length, so the message is not the BIP143 message. A segwit input without an amount is refused.", "quantifier": "all transactions, positions, amounts; all hash functions", "why_tests_cant": "Universal over transactions.", "anchors": ["btcTransaction/txHash.go: calcSegwitHash, getSegwitBytesForSig"]}
{"id": "C36", "title": "Multisig redeem scripts round-trip", "statement": "CreateMultiSig succeeds exactly for 1<=m<=n<=16 keys of 33 or 65 bytes whose script has at most 520 bytes (so at most 15 compressed keys); the script is OP_m, a push of each key, OP_n, OP_CHECKMULTISIG in hex. Parsing the script returns exactly m and the keys in order when all keys have 33 bytes, and fails when one of them has 65 bytes: such scripts can be made but not spent with this library.", "quantifier": "all key lists and thresholds, all hash functions", "why_tests_cant": "Universal over key lists.", "anchors": ["btcTransaction/txMultiSig.go: CreateMultiSig, getMultiDetails"]}
{"id": "C37", "title": "Multisig verification counts signatures, not signers", "statement": "The multisig check accepts exactly when each of the first m signatures is valid under some key at the same or a later position; different signatures need not use different keys, so one signature of the last key repeated m times is accepted for every m-of-n script.", "quantifier": "all signature lists; all verification oracles", "why_tests_cant": "Adversarial input never produced by the signing path.", "anchors": ["btcTransaction/transaction.go: VerifyRawTransaction", "btcTransaction/SignaturePubkey.go"]}
{"id": "C38", "title": "Polkadot compact integers are SCALE compact, except just below 2^64", "statement": "For every value 0 < v < 2^64 the encoding is the SCALE compact encoding of v exactly when v <= 2^64 - 2^56; above that the length prefix is wrong. A SCALE encoding reads back as its value whatever follows it. Encode(0) panics.", "quantifier": "all 64-bit values, all following bytes", "why_tests_cant": "2^64 values with mode boundaries at 2^6, 2^14, 2^30 and a wrong prefix only in the last 2^56 values.", "anchors": ["polkadotTransaction/codec.go: Encode, getPrefix, removeExtraLEBytes"]}
{"id": "C39", "title": "Polkadot mortal era encodes the block height", "statement": "For every block height the two era bytes decode (by the Substrate rule) to period 64 and phase height mod 64.", "quantifier": "all heights", "why_tests_cant": "Universal arithmetic statement.", "anchors": ["polkadotTransaction/txEra.go: GetEra"]}
{"id": "C40", "title": "Ripple: the hash signed is the hash of the transaction that is sent", "statement": "A payment is accepted exactly when amount and fee are non-zero, the key is 33 bytes starting with 2 or 3 and both addresses are valid; the text is the serialised fields in ledger order with a marker where the signature goes, and the hash handed out is the first half of SHA-512 over the signing prefix and those fields. The hash recomputed from the text at combination time is the hash handed out.", "quantifier": "all payments, all hash functions", "why_tests_cant": "Agreement of two independent code paths over all inputs.", "anchors": ["rippleTransaction/transaction.go: CreateEmptyRawTransactionAndHash", "rippleTransaction/txStruct.go: NewTxStruct, GetHash, ToEmptyRawWiths, getHashFromEmptyRawHex"]}
{"id": "C41", "title": "Ripple fields that do not fit are silently truncated; within range the signed bytes determine the payment", "statement": "Two payments that differ only by multiples of 2^32 in the destination tag and of 2^62 in amount and fee produce the same text and the same hash. For payments with tag below 2^32, amounts below 2^62 and memo parts below 256 bytes, equal signed bytes mean equal sender, destination, key, tag, sequence, amounts, last ledger and memo.", "quantifier": "all pairs of payments", "why_tests_cant": "A collision statement and an injectivity statement over all pairs of inputs.", "anchors": ["rippleTransaction/txStruct.go: getDestinationTagBytes, getAmountBytes, getFeeBytes, getMemosBytes", "rippleTransaction/txUtils.go: Bytes, memoToBytes"]}
{"id": "C42", "title": "WaykiChain variable-length integers", "statement": "For every non-negative 64-bit value the encoding is decodable back to the value and prefix-free, hence injective; every negative value is encoded as a single byte equal to its low seven bits, so it collides with a small non-negative value. Register IDs are accepted exactly when they are two decimal numbers joined by a dash, possibly with white space around; numbers of 2^63 and more are clamped, and white space before (after) the ID silently turns the first (second) number into 0.", "quantifier": "all int64 values; all ID strings", "why_tests_cant": "2^64 values; prefix-freeness relates all pairs; unbounded strings.", "anchors": ["waykichainTransaction/txUtils.go: int64ToUvarint, isRegIdStr", "waykichainTransaction/txStruct.go: NewCommonTx"]}
{"id": "C43", "title": "WaykiChain: the hash verified is the hash created, over everything that is sent", "statement": "For every transaction kind, the hash recomputed from the unsigned text during verification equals the hash returned by creation and covers every byte of the unsigned text; the unsigned text of a common, register, contract or coin transfer reads back, in the chain's wire format, as exactly the requested fields (negative amounts and fees as their low seven bits, contract code cut to its length modulo 256); requests with a negative height, bad IDs, addresses, keys or an empty coin name never succeed.", "quantifier": "all transactions of the four kinds", "why_tests_cant": "Two code paths must agree for every input.", "anchors": ["waykichainTransaction/txStruct.go: NewCommonTx, NewRegisterAccountTx, NewCallContractTx, NewUcoinTransferTx, ToBytes, GetHash, getHashFromEmptyRawTrans", "waykichainTransaction/transaction.go: CreateEmptyRawTransactionAndHash"]}
{"id": "C44", "title": "VSYS transactions round-trip", "statement": "A payment is created exactly for Base58Check recipients, with the chain's message bytes; creation crashes exactly on recipients of fewer than four decoded bytes. For a 26 byte address and an empty attachment decoding gives back every field and the time cut to microseconds; a non-empty attachment is not written at all, different attachments give the same bytes, and the result does not decode. The decoder accepts exactly the 55 byte messages of the chain's format with an empty attachment, shows their fields, and panics on no bytes.", "quantifier": "all transactions, all byte strings for the decoder", "why_tests_cant": "Universal over field values and over byte strings.", "anchors": ["virtualeconomyTransaction/transaction.go: CreateEmptyTransaction", "virtualeconomyTransaction/txDecode.go: TxStructDecode", "virtualeconomyTransaction/base58.go: DecodeCheck"]}
{"id": "C45", "title": "MOAC RLP encoding", "statement": "List headers and 64-bit integers are canonical RLP for all values; big integers between 1 and 0x7f are encoded non-canonically with a length byte.", "quantifier": "all values", "why_tests_cant": "Universal over integers and lengths.", "anchors": ["moacchainTransaction/*.go: getHeadBytes, getUint64Bytes, getBigIntBytes"]}
{"id": "C46", "title": "MOAC unsigned transactions are accepted for signing only while they are short", "statement": "An unsigned MOAC transaction of at most 56 bytes is accepted exactly when the signature has 65 bytes with last byte 0 or 1, recovers to the named public key and verifies; the result is then the RLP list of the same fields with V = recovery id + 35 + 2 * chain id of the network named at verification, R and S. A created transaction of 57 to 130 bytes is refused whoever signed it.", "quantifier": "all transactions, signatures and keys", "why_tests_cant": "The failing set depends on the total length of all fields.", "anchors": ["moacchainTransaction/transaction.go: VerifyAndCombineRawTransaction", "moacchainTransaction/txStruct.go: ToBytes, decodeEmpty, addSig"]}
{"id": "C47", "title": "Filenet transfers: creation, reading back, totals and order", "statement": "Creation succeeds exactly when sender and recipients are addresses (Base58 of the hex of 20 bytes) and there is at least one output and no zero amount. The transfer read back has the same hash, sender, number of outputs and time, the total is the sum of the outputs modulo 2^64, and the outputs are in the order of their address texts, a permutation of those given when the addresses use lower-case hex. A text is read exactly when it is such a transfer; the total written is not compared with the outputs.", "quantifier": "all output lists, addresses, amounts and sort.Sort implementations", "why_tests_cant": "Unbounded lists; wrap-around; unstable sorting.", "anchors": ["filenetTransaction/txStruct.go: NewTxStruct, ToBytes, decodeRawTransaction", "filenetTransaction/txTo.go: Less", "filenetTransaction/address.go"]}
{"id": "C48", "title": "Ontology transfers: what is created, what decodes and what is lost", "statement": "Creation succeeds exactly when sender and receiver are Base58Check addresses with prefix 0x17 and a 20 byte hash and the payer (the sender if empty) has any prefix and a 20 byte hash. Run on the virtual machine of the chain, the payload calls the native ONT or ONG contract with the method, the sender, receiver and amount given. An unsigned transaction is decoded back to the same fields. Signatures are added exactly when all verify for the hash returned at creation. A transaction with exactly one signature is rejected by the decoder of the library, with two or more the decoded transaction serialises with the first only, and adding signatures to it drops the new ones.", "quantifier": "all transfers, addresses, amounts below 2^512, texts and signature lists", "why_tests_cant": "Universal over amounts, addresses and signature lists.", "anchors": ["ontologyTransaction/txInvokeCode.go: NewNativeInvoke, ToBytes", "ontologyTransaction/txStruct.go: ToBytes, DecodeRawTransaction", "ontologyTransaction/txSigPub.go: decodeSigPubBytes", "ontologyTransaction/transaction.go: VerifyAndCombineRawTransaction"]}
{"id": "C49", "title": "Ontology integers are two's complement little-endian", "statement": "Every 64 bit unsigned amount and every non-negative big integer is pushed as one instruction whose value is the integer, a byte string being a shortest one. A negative integer is pushed right exactly when it is between -128*256^k and -256^k for some k; the others (for example -255) are pushed as a different number. An amount of 2^2040 or more makes a payload whose length is written modulo 256.", "quantifier": "all integers with fewer than 2^34 bits", "why_tests_cant": "Unbounded integers.", "anchors": ["ontologyTransaction/txUtils.go: getLength, bigIntToNeoBytes, uint64ToEmitBytes, bigIntToEmitBytes"]}
{"id": "C50", "title": "Verification without signatures", "statement": "ontology and elastos VerifyAndCombineRawTransaction return success for an empty signature list, for every transaction (elastos: for every hexadecimal text). With signatures, elastos accepts exactly when every signature is valid for the key given with it; neither the keys nor their number need have anything to do with the inputs.", "quantifier": "all transactions, all lists of signatures", "why_tests_cant": "Vacuous-loop acceptance for every input.", "anchors": ["ontologyTransaction/transaction.go: VerifyAndCombineRawTransaction", "elastosTransaction/transaction.go: VerifyAndCombineRawTransaction"]}
{"id": "C51", "title": "LEB128 varints (bytom, elastos)", "statement": "uint64ToUvarint writes the shortest base-128 form of every x < 2^56, and uvarintToUint64 reads it back; for every x >= 2^56 the encoder panics.", "quantifier": "all 64-bit values", "why_tests_cant": "2^64 values with exact boundary.", "anchors": ["bytomTransaction/txUtil.go: uint64ToUvarint, uvarintToUint64", "elastosTransaction/txUtils.go"]}
{"id": "C52", "title": "Bytom unsigned transactions round-trip while source positions are below 128", "statement": "CreateEmptyRawTransaction succeeds exactly when there are inputs and outputs, every address is a version-0 segwit address with the network's prefix, identifiers are 32 bytes of hexadecimal, programs 22 or 34 bytes, and all numbers are below 2^56. With at most 127 inputs and outputs the chain reads the result as exactly these inputs and outputs. The library's own decoder gives the same values back when there are at most 255 of each and every source position is below 128; in all other cases it returns an error.", "quantifier": "all lists of inputs and outputs, all 64-bit values", "why_tests_cant": "Unbounded lists; the decoder reads the position as one byte, so the boundary matters.", "anchors": ["bytomTransaction/transaction.go: CreateEmptyRawTransaction", "bytomTransaction/txStruct.go: toBytes, DecodeRawTransaction", "bytomTransaction/txIn.go", "bytomTransaction/txOut.go"]}
{"id": "C53", "title": "HyperCash: creation is exact, the hashes verified are the hashes returned, the signed form is exact", "statement": "CreateEmptyTransactionAndHash succeeds exactly when there are inputs and outputs, ids are 32 bytes of hex, lock scripts are hex and addresses are checked addresses with prefix 09 7f; the text carries a serialisation that reads back as the inputs, amounts, scripts, lock time and expiry given. For that text VerifyAndCombineTransaction checks every signature against exactly the hash returned for its input, fails if one does not verify or their number differs, and otherwise returns the transaction followed by one witness per input in order.", "quantifier": "all inputs, outputs, hash functions, signature checkers and signature lists", "why_tests_cant": "Two code paths over unbounded lists must agree on every byte.", "anchors": ["hypercashTransaction/transaction.go: CreateEmptyTransactionAndHash, VerifyAndCombineTransaction", "hypercashTransaction/TxStruct.go: NewTxStruct, ToBytes, GetHash", "hypercashTransaction/txIn.go, txOut.go"]}
{"id": "C54", "title": "Variable-length counts are Bitcoin CompactSize", "statement": "varIntToBytes produces the shortest CompactSize form, decodable and prefix-free, for every 64-bit count.", "quantifier": "all 64-bit values", "why_tests_cant": "Boundaries at 0xfd, 2^16, 2^32 over all values.", "anchors": ["hypercashTransaction/txUtils.go: varIntToBytes"]}
{"id": "C55", "title": "Aliencoin, Verge and Vollar: created transactions read back and are verified against the hashes returned", "statement": "Creation succeeds exactly when ids and lock scripts are hex and every address is a checked address of the right kind (Vollar also needs an input); for 20-byte address hashes the text is the standard layout, readable as the inputs, amounts, scripts, time and lock time given, and the hashes are the standard ones. For 1 to 255 inputs with 32-byte ids and at most 255 outputs, Aliencoin and Verge accept that text exactly when every signature in order passes against the hash returned for its input and return the transaction with the signature scripts.", "quantifier": "all transactions, hash functions, checkers and signature lists", "why_tests_cant": "Two code paths over unbounded lists must agree.", "anchors": ["aliencoinTransaction/transaction.go, txStruct.go, txIn.go, txOut.go", "vergeTransaction/transaction.go, txStruct.go, txIn.go, txOut.go", "vollarTransaction/transaction.go, txStruct.go, txIn.go, txOut.go"]}
{"id": "C56", "title": "Mateverse: the signed transaction is the shown one with scripts, and each signature was checked against it", "statement": "Take inputs from an unsigned text whose input count has the standard form, give them lock scripts, compute the hashes on the same text, attach signatures and keys and combine. The result is accepted exactly when every signature passes against the hash of that transaction with the input's lock script alone in place and its bytes unchanged otherwise, and it is the same transaction with a script per input and the same remaining bytes.", "quantifier": "all texts, lock scripts, hash functions, checkers, signatures and keys", "why_tests_cant": "Universal over byte strings and three calls in sequence.", "anchors": ["mateverseTransaction/transaction.go: GetInputsFromEmptyRawTransaction, GetSigHash, VerifyAndCombineTransaction", "mateverseTransaction/txIn.go: decodeEmptyTx, getHashCalcBytes, getSubmitBytes"]}
{"id": "C57", "title": "FiiiCoin signatures do not cover the outputs", "statement": "VerifyAndCombineTransaction accepts exactly one 64-byte signature with a 32-byte key per input, each verified over the spent transaction's id followed by the output number modulo 2^32 as four big-endian bytes; the result is the transaction with the unlocking scripts, hash and size filled in. So signatures accepted for one transaction are accepted for every other transaction with the same inputs in the same order, whatever its outputs, and the key is not compared with anything.", "quantifier": "all transactions, signatures, hash functions and signature checks; all pairs of transactions with the same inputs", "why_tests_cant": "A relational property over pairs of transactions.", "anchors": ["fiiiTransaction/txInput.go: genMessage, genMessageBytes", "fiiiTransaction/transaction.go: VerifyAndCombineTransaction", "fiiiTransaction/txUnlock.go: GenUnlockScript"]}
{"id": "C58", "title": "Scalar range checks of the deterministic signers", "statement": "For every string of at least 32 bytes, the word-wise overflow checks used for private keys and for nonces are true exactly when its first 32 bytes, read big-endian, are at least the secp256k1 order, and the zero check exactly when they are zero. Shorter strings make them panic.", "quantifier": "all byte strings", "why_tests_cant": "The comparison is spread over 4 or 8 words with two flags; boundary cases need every combination of equal words.", "anchors": ["signatureSet/ethSignature.go: eth_check_overflow_uint64, eth_check_overflow_uint32, eth_check_is_zero (and the tron, nas, icx copies)"]}
{"id": "C59", "title": "Deterministic signers: first RFC 6979 nonce, never a second one; exact result", "statement": "The nonce used is the first RFC 6979 candidate for the first 32 key bytes and the hash. Because the retry flag is shadowed, the buffer for counter c is c+1 copies of it: if that nonce is refused (out of range, or refused by the curve library) no signature is ever produced; the signer runs 2^27 rounds and panics. Otherwise one round gives r||s'||v with status success: s'=s and v the parity of the nonce point when s is at most half the order, else v flipped and s'=order-s when that has at least 31 bytes; for shorter values s' is neither s nor order-s. A hash of another length gives failure, a key outside 1..order-1 gives 65 zero bytes with status 0, a short key panics.", "quantifier": "all keys, hashes, HMAC functions and curve oracles, any number of rounds", "why_tests_cant": "Refused nonces occur with probability 2^-128 and short s values with probability 2^-16; no test meets them.", "anchors": ["signatureSet/ethSignature.go: eth_nonce_function_rfc6979, eth_signatureInner, EthSignature (and the tron, nas, icx copies)"]}
{"id": "C60", "title": "EOS signatures returned are canonical, and are the first usable ones", "statement": "SignCanonical returns a signature exactly when one of the first 25 rounds yields a usable one (a recovery id 0 or 1 recovers the public key, and r and s both lie between 2^247 and 2^255) after rounds that yielded unusable ones. The result is 31 plus the smallest such recovery id, followed by the 64 bytes of the curve library. After 25 unusable signatures the answer is an error.", "quantifier": "all keys, hashes and oracles", "why_tests_cant": "The retry path needs signatures of particular sizes.", "anchors": ["eosSignature/signature.go: SignCanonical, makeCompact, isCanonical"]}
{"id": "C61", "title": "BLAKE-256/224 is computed exactly, whatever the history of writes", "statement": "After any sequence of Write, Sum and Reset calls on a new hash object (256 or 224 bits, with or without salt), Sum returns the BLAKE hash, as defined by its authors, of the bytes written since the last Reset: same padding, block counters, permutations and rotations. Salts must have 16 bytes; other lengths panic.", "quantifier": "all histories of calls, all messages of any length, all salts", "why_tests_cant": "All histories of Write calls and all lengths; the compression function is 1600 unrolled lines.", "anchors": ["addressEncoder/blake256/blake256.go: Write, Sum, Reset, New, New224, NewSalt, New224Salt", "addressEncoder/blake256/blake256block.go: block"]}
{"id": "C62", "title": "Signer registry: first registration wins, lookup ignores case", "statement": "After any history of RegTxSigner calls without a nil signer, GetTxSigner(symbol) returns the signer of the first registration whose name equals the symbol up to ASCII case, or nil when there is none; a nil signer panics. The 25 names registered when the package is loaded keep their signers whatever is registered later; NAS and TRX are not among them.", "quantifier": "all registration histories, all symbols", "why_tests_cant": "Unbounded histories.", "anchors": ["signatureSet/init.go: init, RegTxSigner, GetTxSigner"]}
{"id": "C63", "title": "Fixed-width integer codecs are exact", "statement": "Writing a 16/32/64-bit number little-endian or big-endian gives that many bytes with that value, reading gives back the number whatever follows, every byte string of that length is the form of exactly one number, and reading panics exactly on shorter data.", "quantifier": "all values and byte strings", "why_tests_cant": "Universal over 2^64 values; foundation for every layout theorem.", "anchors": ["btcTransaction/txUtils.go: uint16/32/64ToLittleEndianBytes, littleEndianBytesToUint16/32/64", "omniTransaction/txUtils.go: big-endian helpers"]}
{"id": "C64", "title": "Transaction ids are byte-reversed hex", "statement": "reverseHexToBytes followed by reverseBytesToHex is the identity on lower-case hex strings of even length, and reverseHexToBytes fails exactly on odd-length or non-hex text.", "quantifier": "all strings", "why_tests_cant": "Universal over strings.", "anchors": ["btcTransaction/txUtils.go: reverseHexToBytes, reverseBytesToHex"]}
{"id": "C65", "title": "Omni outputs say exactly what was asked for", "statement": "For each of the twelve Omni message kinds, every property id, amount, ecosystem, memo of at most 54 bytes without zero byte, and accepted destination address, the output script is OP_RETURN with one push that reads back as that message; two requests with the same script ask for the same thing. The HyperCash simple send is the same script behind its length.", "quantifier": "all requests", "why_tests_cant": "Universal over values, memos and addresses; the two encoders must match an independent reader.", "anchors": ["omniTransaction/txPayload.go, txOmni.go (also bitcoincashTransaction, bitcoinsvTransaction)", "hypercashTransaction/txOmni.go: createPayloadSimpleSend"]}
{"id": "C66", "title": "Bytom segwit addresses are canonical", "statement": "encodeSegWitAddress succeeds for every version 0..16 and every program of 2..40 bytes (20 or 32 for version 0) whenever the text has at most 90 characters, and decodeSegWitAddress of the text returns version and program; conversely every text the decoder accepts is, up to letter case, exactly the text the encoder produces for the decoded version and program; mixed-case texts are rejected.", "quantifier": "all prefixes, versions, programs and texts", "why_tests_cant": "Universal over texts, including uniqueness of the six checksum characters.", "anchors": ["bytomTransaction/bech32.go: encodeSegWitAddress, decodeSegWitAddress, Bech32Encode, Bech32Decode"]}
{"id": "C67", "title": "AddressEncode hashes inputs of the wrong length", "statement": "For a base58 profile, AddressEncode of an input whose length is not the profile's hash length gives the address of the input's hash under the profile's hash rule, and AddressDecode of the text gives that hash when it has the profile's length and an error otherwise. Profiles without a hash rule (private and extended keys) give one and the same undecodable text for all inputs of a wrong length.", "quantifier": "all inputs of the wrong length, all base58 profiles, all hash functions", "why_tests_cant": "Universal over inputs and hash functions; silent key loss for wrong lengths is not visible in a test that only uses right lengths.", "anchors": ["addressEncoder/addressEncoder.go: AddressEncode, calcHash", "addressEncoder/encoderProfile.go"]}
{"id": "C68", "title": "Bech32 profiles do not distinguish networks when decoding", "statement": "AddressDecode with a bech32 profile never looks at the profile: for every text it returns the same result for any two bech32 profiles, and it accepts texts with any lower-case human-readable part and any version symbol; encode followed by decode returns the 20-byte hash for every listed profile.", "quantifier": "all texts, all pairs of bech32 profiles, all 20-byte hashes", "why_tests_cant": "Universal over texts and profiles.", "anchors": ["addressEncoder/addressEncoder.go: AddressDecode bech32 branch", "addressEncoder/bech32/bech32.go: Decode"]}
{"id": "C69", "title": "AddressCheck accepts what AddressEncode produces", "statement": "For each of the 13 symbols AddressCheck knows, every address AddressEncode produces for a profile of that symbol is accepted, except NAS contract addresses: those whose second character is 1 (all whose first hash byte is below 231) are rejected. An accepted text is decodable under one of the symbol's profiles. Any other symbol accepts every text. The empty text makes every known symbol panic, and a short correctly checksummed text makes BTC panic.", "quantifier": "all symbols, all profiles of the symbol, all hashes of the profile's length, all hash functions, all texts", "why_tests_cant": "The dispatch is on leading characters; whether every hash gives the right leading characters is a statement about all 2^160 hashes.", "anchors": ["addressEncoder/addressCheck.go: AddressCheck"]}
{"id": "C70", "title": "Root keys from seeds", "statement": "InitRootKeyFromSeed accepts exactly the seeds of 16 to 64 bytes. The root key is private, at depth 0 with child number 0 and fingerprint 00000000; its chain code is the second half of the SHA-512 digest of the seed and its key the first half, with the first and last byte clamped on the 25519 curves, the first byte capped at 0x72 on BLS and reduced modulo 4 on Pasta.", "quantifier": "all seeds, all curves, every SHA-512 function", "why_tests_cant": "Universal over seeds and lengths.", "anchors": ["owkeychain/extendedkey.go: InitRootKeyFromSeed"]}
{"id": "C71", "title": "Inserting signatures gives the signed transaction", "statement": "For a transaction made by CreateEmptyRawTransaction whose inputs are all single-key inputs, giving one 64-byte signature (neither half zero) and one 33-byte public key per input and calling InsertSignatureIntoEmptyTransaction yields the serialisation of the same transaction in which a P2PKH input's script pushes the minimal DER signature with hash type ALL and the key, a nested witness input's script pushes its redeem script, a native witness input's script is empty, and marker, flag and one witness per input (DER signature and key, or none) are present exactly when some input is a witness input. It is an error exactly when there is a witness input and segwit is switched off.", "quantifier": "all created transactions with at most 252 inputs and outputs, all mixes of the three single-key input kinds, all signatures and keys, all hash functions", "why_tests_cant": "Universal over transactions, input mixes and signatures.", "anchors": ["btcTransaction/transaction.go: InsertSignatureIntoEmptyTransaction", "btcTransaction/txStruct.go: encodeToBytes", "btcTransaction/txIn.go: toBytes, toSegwitBytes", "btcTransaction/SignaturePubkey.go: encodeToScript"]}
{"id": "C72", "title": "VerifyRawTransaction checks exactly the signatures against the keys supplied with them", "statement": "For a signed transaction built as in C71, VerifyRawTransaction returns true exactly when every input's signature and key can be read back from the script (C28: always so for r < 2^247 or s >= 2^231) and the signature is valid for the hash of that input (the one CreateRawTransactionHashForSig returned) under the public key read from the input. A transaction with a signature that is not read back is rejected even if the signature is valid. The public key is not compared with the locking script: a transaction signed with unrelated keys is accepted.", "quantifier": "all transactions of C71, every ECDSA verification predicate, every key decompression function", "why_tests_cant": "Universal over transactions, keys and verification predicates; the absence of a comparison is not visible in tests that sign with the right keys.", "anchors": ["btcTransaction/transaction.go: VerifyRawTransaction", "btcTransaction/txHash.go"]}
{"id": "C73", "title": "A multisig address made by CreateMultiSig pays to a key hash", "statement": "The address CreateMultiSig returns carries the pay-to-public-key-hash prefix. For the Bitcoin, Bitcoin Cash and Litecoin prefix tables, an output created for that address is the pay-to-public-key-hash script of the script's hash, never the pay-to-script-hash script needed to spend it with the multisig script.", "quantifier": "all thresholds and keys, all amounts, all hash functions, six prefix tables", "why_tests_cant": "Universal over keys; only visible by following the address into the transaction builder.", "anchors": ["btcTransaction/txMultiSig.go: CreateMultiSig", "btcTransaction/txOut.go: newTxOutForEmptyTrans"]}
{"id": "C74", "title": "A Polkadot transfer is combined exactly when its signature verifies, with the signed fields", "statement": "The message to sign is the call, era, compact nonce and tip, versions, genesis hash and block hash; it determines destination, amount, era phase, nonce, tip, versions and hashes. A transaction is returned exactly when the 64-byte signature verifies over that message for the sender's key, and it is the length-prefixed signed extrinsic with the same call, era, nonce and tip. The message never exceeds 256 bytes for call indexes of up to 60 bytes. A sender that is not 32 bytes but accepted by the verifier yields true with an empty transaction.", "quantifier": "all transfers with integer fields up to 2^64 - 2^56, all call indexes, all signature texts, all verifiers", "why_tests_cant": "Injectivity relates all pairs of transfers; exactness ranges over all signatures.", "anchors": ["polkadotTransaction/txStruct.go: NewTxPayLoad, GetSignedTransaction", "polkadotTransaction/transaction.go: VerifyAndCombineTransaction"]}
{"id": "C75", "title": "Ripple: a signed payment is returned exactly when the signature verifies, with a minimal DER signature", "statement": "For a 64-byte signature with non-zero halves, combination returns true exactly when the signature verifies over the hash handed out for the key given in the call (not compared with the key in the payment), and the transaction is the payment's fields with the DER signature field inserted. An accepted signature of another length yields true with the unsigned transaction; a key that does not decompress panics.", "quantifier": "all payments, signatures, keys, verifiers", "why_tests_cant": "Ranges over all signatures and verifiers.", "anchors": ["rippleTransaction/transaction.go: VerifyAndCombinRawTransaction", "rippleTransaction/txUtils.go: getSignatureBytes"]}
{"id": "C76", "title": "WaykiChain: combined only with a signature that verifies", "statement": "For every created transaction, key and 64-byte signature with non-zero halves, verification and combination returns true exactly when the signature verifies for the created hash under the key, and then the result is the unsigned text followed by the length-prefixed minimal DER form of that signature; otherwise it returns false and the empty string.", "quantifier": "all transactions, keys, signatures and verification oracles", "why_tests_cant": "Universal over the oracle and all inputs.", "anchors": ["waykichainTransaction/transaction.go: VerifyAndCombineRawTransaction", "waykichainTransaction/txSignature.go: ToBytes"]}
{"id": "C77", "title": "VSYS: what is sent is what was signed", "statement": "Verification checks the signature against exactly the bytes of the unsigned transaction, and the JSON body made for sending a created transaction holds exactly the amount, fee, fee scale, recipient and time of the signed bytes, with key and signature that decode back to those given.", "quantifier": "all transactions, keys and signatures", "why_tests_cant": "Universal over field values and oracles.", "anchors": ["virtualeconomyTransaction/transaction.go: VerifyTransaction, CreateJSONRawForSendTransaction"]}
{"id": "C78", "title": "MOAC verification of longer and empty transactions", "statement": "Verification panics exactly when the unsigned text is empty and the signature recovers to the named key; a created transaction of 138 bytes with an eight-byte nonce ending in 0x81 and three 32-byte numbers is accepted and the returned transaction has another nonce and a system contract.", "quantifier": "all signatures, keys and texts", "why_tests_cant": "Which inputs panic or are misread is a question about all of them.", "anchors": ["moacchainTransaction/transaction.go: VerifyAndCombineRawTransaction", "moacchainTransaction/txStruct.go: decodeEmpty"]}
{"id": "C79", "title": "Filenet verification checks the signature only against the key given, and can crash on a count", "statement": "Verification accepts exactly when the text is a transfer and the signature verifies for its hash under the decompressed key given; the key is not compared with the sender. Reading crashes exactly when the written number of outputs exceeds the largest slice length.", "quantifier": "all texts, signatures and keys", "why_tests_cant": "Universal over texts, including ones not produced by the creation function.", "anchors": ["filenetTransaction/transaction.go: VerifyAndCombineTransaction", "filenetTransaction/txStruct.go: decodeRawTransaction"]}
{"id": "C80", "title": "Ontology creation crashes exactly on some malformed addresses, and the signature count is one byte", "statement": "Creating a transaction crashes exactly when the sender, or the receiver after a good sender, or the payer after both, is Base58 of fewer than four bytes or of the bare checksum of nothing; every other malformed address is an error. A multiple of 256 signatures is counted as none and the resulting text is rejected.", "quantifier": "all address texts and signature lists", "why_tests_cant": "Universal over texts.", "anchors": ["ontologyTransaction/base58.go: DecodeCheck", "ontologyTransaction/txStruct.go: ToBytes"]}
{"id": "C81", "title": "Elastos transactions carry exactly the given inputs and outputs", "statement": "A transaction is created exactly when there are inputs and outputs, all identifiers are hexadecimal and all addresses are valid. When identifiers have 32 bytes the chain reads back exactly the given inputs, outputs and amounts; otherwise different transactions can have the same bytes and hash. There is one hash per distinct input address, in order of first occurrence, and all are the SHA-256 of the transaction. Creation never panics.", "quantifier": "all lists of inputs and outputs, all texts", "why_tests_cant": "Unbounded lists, all values; collisions between malformed inputs.", "anchors": ["elastosTransaction/transaction.go: CreateEmptyRawTransactionAndHash", "elastosTransaction/txStruct.go: NewTransaction, GetEmptyAndHash", "elastosTransaction/txIn.go", "elastosTransaction/txOut.go"]}
{"id": "C82", "title": "Bytom signature hashes commit to the transaction, except for its version", "statement": "For any two transactions the decoder accepts, equal signature hashes of two inputs mean that both inputs spend the same output, that all inputs and all outputs and the time range are the same, or that two different byte strings with the same SHA3 hash are known. Two transactions that differ only in their version have the same signature hashes and the same verification result.", "quantifier": "all pairs of decodable transactions, all hash functions with 32-byte results", "why_tests_cant": "A statement about all pairs of transactions.", "anchors": ["bytomTransaction/txStruct.go: getInputID, getMuxID, getOutID, getTxID, getSigHash", "bytomTransaction/transaction.go: CreateRawTransactionHashForSig"]}
{"id": "C83", "title": "Bytom signatures are carried to the chain and checked against their own inputs", "statement": "For a created, decodable transaction CreateRawTransactionHashForSig returns one hash per input, with the address of its program. After InsertSignatureIntoEmptyTransaction of one answer per input the chain finds the same inputs and outputs with the signatures and keys (or the signatures and the script) as arguments, and VerifyRawTransaction accepts exactly when the check of every input accepts its answer for that input's hash. The key is not compared with the program of the input. VerifyRawTransaction of an unsigned transaction panics when the first program has 22 bytes and refuses when it has 34. Creation panics for addresses of less than two characters and numbers from 2^56; the decoder panics on a time range without end; insertion panics when there are more hashes than inputs or a signature is missing.", "quantifier": "all transactions, signatures, keys, signature schemes", "why_tests_cant": "All combinations of inputs, single and multisignature answers.", "anchors": ["bytomTransaction/transaction.go: CreateRawTransactionHashForSig, InsertSignatureIntoEmptyTransaction, VerifyRawTransaction", "bytomTransaction/sigPub.go: toBytes"]}
{"id": "C84", "title": "Bytom multisignature: what is accepted, and what the chain can read", "statement": "CreateMultiSig returns a script of the keys in order and the address of its hash; PadMultiSig gives the keys and the required number back, except that 208 required signatures cannot be read back. The keys of all members must be filled in before signatures can be inserted. The check of a multisignature input counts matching pairs of a signature and a key not before it: signatures of different members in key order are accepted, but so is one member's signature given twice, and an invalid signature when a key is listed twice, while two valid ones are then refused. Arguments with one required signature cannot be read by the chain.", "quantifier": "all key lists, all required numbers, all signature lists and signature schemes", "why_tests_cant": "All combinations of keys and signatures; the wrong counts need particular combinations.", "anchors": ["bytomTransaction/txMultiSig.go: CreateMultiSig, getMultiSigDetail, getMultiSigPubs", "bytomTransaction/txHash.go: PadMultiSig, getMultiSigBytes", "bytomTransaction/transaction.go: VerifyRawTransaction"]}
{"id": "C85", "title": "SignTxHash dispatch", "statement": "A registered signer is always used for its symbol. Without one, NAS and TRX in any case use the deterministic recoverable signer and report an error for a key outside 1..order-1; every other symbol uses the plain signer with the message length taken modulo 65536, and for secp256k1 the result is r||s' with s' the smaller of s and order-s.", "quantifier": "all registries, symbols, messages, keys, curves and oracles", "why_tests_cant": "All combinations of registry contents and symbols.", "anchors": ["signatureSet/signature.go: SignTxHash, serilizeS"]}
{"id": "C86", "title": "EOS nonces are the RFC 6979 candidates, without leading zero bytes", "statement": "The nonce of round i is the first candidate between 1 and order-1 of the RFC 6979 sequence seeded with the key and the once-reduced hash (round 0) or SHA-256 of the hash and i zero bytes (later rounds). Its leading zero bytes are removed, so it has 32 bytes only when it is at least 2^248. While no candidate is in range the search goes on.", "quantifier": "all keys, hashes, rounds, HMAC and hash functions", "why_tests_cant": "Out-of-range candidates have probability 2^-128.", "anchors": ["eosSignature/randomGenerator.go: generateRandomFromNonce, int2octets, bits2octets, hashToInt"]}
{"id": "C87", "title": "FiiiCoin creation is exact and the transaction hash covers its content except the version", "statement": "CreateEmptyTransactionAndMessage succeeds exactly when there are inputs and outputs, every input names a 32-byte id in hexadecimal and every output pays a positive amount to an address of a 20-byte hash with the given prefix; it keeps the order, and message i is the hexadecimal text of what is later verified for input i. The hash of the completed transaction is that of bytes from which times, inputs with their scripts and outputs can be read back; the version is not among them. The size is the number of those bytes plus 36.", "quantifier": "all inputs, outputs, times, signatures and hash functions", "why_tests_cant": "Ranges over all address texts and lists.", "anchors": ["fiiiTransaction/transaction.go: CreateEmptyTransactionAndMessage", "fiiiTransaction/txStruct.go: Complete", "fiiiTransaction/txInput.go: ToBytes", "fiiiTransaction/txOutput.go: ToBytes, NewOutputMsg"]}
{"id": "C88", "title": "DoubleBlake256 is BLAKE-256 applied twice", "statement": "DoubleBlake256 returns the BLAKE-256 hash (no salt) of the BLAKE-256 hash of the data.", "quantifier": "all byte strings", "why_tests_cant": "Universal over byte strings.", "anchors": ["addressEncoder/blake256/blake256.go: DoubleBlake256"]}
{"id": "C89", "title": "Omni requests that are silently lost", "statement": "A grant or revoke with a memo of more than 54 bytes produces an output script that reads as no message at all, without error; a freeze or unfreeze whose address is refused produces a script holding only the word omni, without error; any kind outside the twelve is refused when the transaction is serialised.", "quantifier": "all memos longer than 54 bytes, all refused addresses, all other kinds", "why_tests_cant": "The length byte wraps and leaves the direct-push range for infinitely many memos; tests sample short ones.", "anchors": ["omniTransaction/txOmni.go: getPayload", "omniTransaction/txPayload.go: createPayloadGrant, createPayloadRevoke, createPayloadFreezeTokens, createPayloadUnfreezeTokens", "omniTransaction/txOut.go: toBytes"]}
{"id": "C90", "title": "HyperCash: acceptance of any text means every signature was checked against the bytes shown", "statement": "For every text and signature list, if VerifyAndCombineTransaction accepts then the text is a hex transaction of full type followed by one lock/script pair per signature, each signature verified against the hash of that transaction without witnesses and of that lock script alone at its position, and the result is that transaction with those witnesses.", "quantifier": "all texts, signatures, hash functions and checkers", "why_tests_cant": "Universal over attacker-supplied texts.", "anchors": ["hypercashTransaction/transaction.go: VerifyAndCombineTransaction"]}
{"id": "C91", "title": "HyperCash: the input list is exact up to 252 inputs", "statement": "For every created transaction with at most 252 inputs GetVinList returns the ids (in lower case) and output indices in order; with exactly 253 inputs it succeeds with ids built from bytes two places off; with more it is refused.", "quantifier": "all created transactions", "why_tests_cant": "The boundary lies at the two-byte form of the count; it needs all list lengths.", "anchors": ["hypercashTransaction/TxStruct.go: GetVinList"]}
{"id": "C92", "title": "HyperCash Omni transactions carry exactly one simple send", "statement": "CreateOmniEmptyTransactionAndHash succeeds exactly when there are inputs and all ids, lock scripts and addresses are valid, and its text and hashes are those of the transaction with the outputs: the recipient, a zero-amount output that reads as a simple send of the given property and amount, and the change if any.", "quantifier": "all inputs, recipients, changes, properties and amounts", "why_tests_cant": "The payload is patched into an already built transaction; all combinations.", "anchors": ["hypercashTransaction/transaction.go: CreateOmniEmptyTransactionAndHash"]}
{"id": "C93", "title": "Aliencoin, Verge, Vollar: exactly which texts are accepted", "statement": "For every text and signature list, verification succeeds exactly when the text is the hex of a transaction with empty input scripts followed by one lock script per input, and the checks are made against hashes of exactly the bytes shown and the lock scripts (for Aliencoin and Verge only their part before the first bad hex pair). Vollar succeeds even when signatures do not pass: it reports false in the flag but returns the signed transaction, followed by 82 zero bytes and one per input.", "quantifier": "all texts, signature lists, hash functions and checkers", "why_tests_cant": "Universal over attacker-supplied texts.", "anchors": ["aliencoinTransaction/transaction.go, txStruct.go, txIn.go, txOut.go", "vergeTransaction/transaction.go, txStruct.go, txIn.go, txOut.go", "vollarTransaction/transaction.go, txStruct.go, txIn.go, txOut.go"]}
{"id": "C94", "title": "Aliencoin, Verge, Vollar: more than 255 inputs or outputs make a text that no signatures can complete", "statement": "Creation with 256 or more inputs or outputs succeeds with a count byte that wrapped, and verification refuses the resulting text for every list of signatures.", "quantifier": "all transactions with more than 255 inputs or outputs", "why_tests_cant": "Infinitely many sizes; the wrapped count could otherwise parse by accident.", "anchors": ["aliencoinTransaction/transaction.go, txStruct.go, txIn.go, txOut.go", "vergeTransaction/transaction.go, txStruct.go, txIn.go, txOut.go", "vollarTransaction/transaction.go, txStruct.go, txIn.go, txOut.go"]}
{"id": "C95", "title": "Mateverse: exactly which texts are decoded", "statement": "GetInputsFromEmptyRawTransaction succeeds exactly on hex of version 4, a count (one byte other than 0 and 253, or 253 and two bytes), that many inputs with empty scripts and at least one further byte, and returns id, index and sequence of every input in order; the text determines count form, inputs and rest uniquely. Hash computation succeeds exactly when moreover every input has a lock script that converts to at least 50 characters and a 32-byte hex id.", "quantifier": "all texts and input lists", "why_tests_cant": "Universal over byte strings.", "anchors": ["mateverseTransaction/txIn.go: decodeEmptyTx", "mateverseTransaction/transaction.go: GetInputsFromEmptyRawTransaction, GetSigHash"]}
{"id": "C96", "title": "Mateverse: combining does not check the text against the hashes", "statement": "VerifyAndCombineTransaction accepts exactly when every input passes against the hash stored in it and the text can be decoded; the result takes only the bytes after the inputs from the text. Hence inputs accepted with one text are accepted with every other text that can be decoded, whatever its inputs and outputs.", "quantifier": "all texts and input lists", "why_tests_cant": "Universal statement about pairs of texts.", "anchors": ["mateverseTransaction/transaction.go: VerifyAndCombineTransaction", "mateverseTransaction/txIn.go: getSubmitBytes"]}
{"id": "C97", "title": "Mateverse: lock script texts convert to the right script", "statement": "For all hashes and attenuation data the wallet's text of a pay-to-key-hash script, plain or with attenuation, converts to the hex of exactly that script (with the length of the data in two bytes and of the second item in one), and hex text is left as it is, so that computing hashes twice uses the same scripts.", "quantifier": "all byte strings in the texts", "why_tests_cant": "A chain of textual replacements must not touch the data, whatever it is.", "anchors": ["mateverseTransaction/txIn.go: getHashFromLockScript"]}
{"id": "C98", "title": "BigBang: what a created transaction says", "statement": "CreateEmptyTransactionAndHash succeeds exactly when anchor and transaction ids are hex (ids of 64 characters), there is an input, the destination is an accepted address and amount and fee are not zero; text and hash are those of the documented layout with exactly these values. A reader of the published format finds exactly what was asked if and only if the anchor has 32 bytes and there are fewer than 256 inputs and 256 bytes of data (longer ones are accepted and their counts wrap).", "quantifier": "all anchors, input lists, destinations, amounts, fees, data, times and hash functions", "why_tests_cant": "Universal over unbounded lists and texts; the wrap of the counts needs at least 256 items.", "anchors": ["bigbangTransaction/txStruct.go: NewTxStruct, ToBytes", "bigbangTransaction/txIn.go: NewTxIn, ToBytes", "bigbangTransaction/transaction.go: CreateEmptyTransactionAndHash"]}
{"id": "C99", "title": "BigBang: addresses are checked", "statement": "An address is accepted exactly when it is 1 followed by 56 digits whose number is the key followed by the 24 bits of its CRC-24Q remainder (line breaks are skipped), and the result is that key after a 1; every key has exactly one such address; two accepted addresses never differ in only up to four neighbouring characters; only the empty text panics.", "quantifier": "all texts and all keys", "why_tests_cant": "Universal over 280-bit strings; error detection is about all pairs of addresses.", "anchors": ["bigbangTransaction/address.go: addressDecode", "bigbangTransaction/crc24.go: crc24q"]}
{"id": "C100", "title": "BigBang: combining checks the signature of the very bytes", "statement": "VerifyAndCombineTransaction succeeds exactly when the text is hex of at least one byte, signature and key have 64 and 32 bytes and the signature is valid for the hash of those bytes; the result is the text's bytes, 64 and the signature. Created, signed and combined, a transaction is accepted with the signer's key.", "quantifier": "all texts, signatures, keys, hash functions and signature schemes", "why_tests_cant": "Universal over byte strings and three calls in sequence.", "anchors": ["bigbangTransaction/transaction.go: CreateEmptyTransactionAndHash, SignTransactionHash, VerifyAndCombineTransaction"]}
{"id": "C101", "title": "Cosmos and Evaio: the text to be signed says exactly the transaction", "statement": "CreateEmptyTransactionAndHash returns one JSON value whose members are exactly the account number, chain id, fee, memo, messages and sequence of the transaction, with the names in every object in increasing order, and the SHA-256 of that very text; two transactions in valid UTF-8 with the same text are equal. Bytes that are not valid UTF-8 are replaced, so transactions that differ only there have the same text.", "quantifier": "all transactions with any texts, any number of messages and coins, nil and empty slices", "why_tests_cant": "Universal over unbounded texts and lists; injectivity is about all pairs.", "anchors": ["cosmosTransaction/transaction.go: CreateEmptyTransactionAndHash", "cosmosTransaction/txStruct.go: TxStruct", "cosmosTransaction/message.go", "cosmosTransaction/coin.go", "cosmosTransaction/fee.go", "evaioTransaction/transaction.go"]}
{"id": "C102", "title": "Cosmos and Evaio: building a transfer", "statement": "NewTxStruct gives the numbers in decimal and the fee as given, unless its first coin has no amount: then all fee coins are dropped, also in the caller's fee. It panics exactly on a nil fee or a fee without coins. Built with NewCoin, NewStdFee, NewMsgSend and NewMessage, a transfer's text names exactly the given parties, amounts, gas and numbers; a zero fee gives no fee coins and a zero amount a coin without amount and name.", "quantifier": "all texts, all integers, all fees and message lists", "why_tests_cant": "Universal over integers and texts; the dropped coins depend on the first coin only.", "anchors": ["cosmosTransaction/txStruct.go: NewTxStruct", "cosmosTransaction/coin.go: NewCoin", "cosmosTransaction/fee.go: NewStdFee", "cosmosTransaction/message.go: NewMsgSend, NewMessage"]}
{"id": "C103", "title": "Cosmos and Evaio: signing and verifying", "statement": "SignTransactionHash succeeds exactly on a 32-byte hash in hexadecimal, a 32-byte key and a successful signature, and returns its normalised form; it panics exactly when the signature library returns fewer than 32 bytes, also for a failed signature. VerifyTransactionSig accepts exactly what the curve accepts for the hash of the text. Created, signed and verified, every transaction is accepted, unless s is high and the order minus s has fewer than 31 bytes, when the signature is too short.", "quantifier": "all transactions, keys, hash functions and signature schemes", "why_tests_cant": "The short signature appears once in about 2^16 signatures; universal over transactions and keys.", "anchors": ["cosmosTransaction/transaction.go: SignTransactionHash, VerifyTransactionSig, serilizeS", "evaioTransaction/transaction.go"]}
{"id": "C104", "title": "Cosmos and Evaio: the broadcast request carries the signed transaction", "statement": "CreateJsonForSend fails exactly when the signature is not hexadecimal; otherwise its text is one JSON value with exactly the messages, fee and memo of the transaction, the mode, and one signature with the key type, the key and signature bytes in base 64 (readable in only one way) and, for Cosmos, the account number and sequence.", "quantifier": "all transactions, signatures, keys, key types and modes", "why_tests_cant": "Universal over unbounded texts, lists and byte strings.", "anchors": ["cosmosTransaction/transaction.go: CreateJsonForSend", "cosmosTransaction/txSend.go", "evaioTransaction/txSend.go"]}
{"id": "C105", "title": "Bitcoin Cash and Bitcoin SV: what a created transaction is", "statement": "CreateEmptyRawTransaction succeeds exactly when there are inputs and outputs, every id is 32 bytes of hexadecimal and every address is a base58check address with one of the profile's three prefixes; the result is the consensus serialisation, version 1, of exactly those inputs and outputs in order, with the key-hash or script-hash script of each address, and it is read back to them and to nothing when bytes follow. The Omni variant refuses the third prefix and adds the payload's script as a last output of amount 0.", "quantifier": "all profiles, inputs, outputs, lock times and replaceability flags (up to 252 inputs and outputs), all payloads", "why_tests_cant": "Universal over unbounded lists and all address texts.", "anchors": ["bitcoincashTransaction/transaction.go: CreateEmptyRawTransaction, CreateOmniEmptyRawTransaction", "bitcoincashTransaction/txOut.go", "bitcoincashTransaction/txStruct.go", "bitcoinsvTransaction/txOut.go"]}
{"id": "C106", "title": "Omni: a created transaction pays the addresses and carries the message", "statement": "CreateEmptyRawTransaction succeeds exactly when every address is a base58check address with the profile's key or script prefix and the payload is not empty; it has one output per address and then, with amount 0, a script from which exactly the requested Omni message is read. A bech32 address (bc1..., tb1...) anywhere makes it fail: the code makes the witness output and then demands that the same text is base58check.", "quantifier": "both Bitcoin profiles, all inputs and outputs (up to 252 and 251), all requests", "why_tests_cant": "Refusal of every text with a given beginning, for every checksum function.", "anchors": ["omniTransaction/transaction.go: CreateEmptyRawTransaction", "omniTransaction/txOut.go: newTxOutForEmptyTrans", "omniTransaction/txOmni.go"]}
{"id": "C107", "title": "HyperCash (hcTransaction): own key-hash addresses cannot be paid", "statement": "CreateEmptyRawTransaction succeeds exactly when every address has the profile's script prefix (0x7F, on the test net 0x21), and pays script-hash scripts. Every address with the profile's key prefix begins with Hs (Ts), which the code takes for bech32, and is refused, so the package never creates a key-hash output.", "quantifier": "both profiles, every key hash and checksum function, all inputs and outputs (up to 252)", "why_tests_cant": "A statement about every 20-byte hash under every checksum function.", "anchors": ["hcTransaction/txProfile.go: HCMainnetAddressPrefix, HCTestnetAddressPrefix", "hcTransaction/txOut.go: newTxOutForEmptyTrans", "hcTransaction/transaction.go"]}
{"id": "C108", "title": "Coinexchain: created transactions and asset transfers", "statement": "CreateEmptyRawTransaction pays exactly the base58check addresses given, version 1. CreateEmptyRawTransactionForAsset gives one output of amount 0 per transfer: the script of the address, then a push of spkq, the asset id (its hexadecimal text backwards) and the 8-byte amount, and OP_DROP; the change comes last. It fails exactly on an id that is not hexadecimal or an address without the profile's prefixes.", "quantifier": "six profiles, all inputs, transfers and change (up to 252 and 251)", "why_tests_cant": "Universal over unbounded lists, ids of any length up to 200 bytes and all address texts.", "anchors": ["cxcTransaction/transaction.go", "cxcTransaction/txAsset.go", "cxcTransaction/txOut.go", "cxcTransaction/txStruct.go"]}
{"id": "C109", "title": "Horizen: created transactions and their replay protection", "statement": "CreateEmptyRawTransaction succeeds exactly when the block hash is hexadecimal and every address is a base58check address with the key or script prefix; every output script ends with the same push of the block hash backwards (of any length, behind a length byte 32), the height in its shortest little-endian form behind its length, and OP_CHECKBLOCKATHEIGHT. A script reads the height as a signed number: it is the given height exactly when its last byte is below 128, otherwise it is not positive; every height from 2^23 to 2^24-1 is affected.", "quantifier": "all inputs and outputs (up to 252), block hashes up to 200 bytes, heights below 2^64", "why_tests_cant": "The wrong sign appears only in ranges of heights; universal over heights and lists.", "anchors": ["zencashTransaction/txOut.go: newTxOutForEmptyTrans", "zencashTransaction/transaction.go: CreateEmptyRawTransaction"]}
{"id": "C110", "title": "Bitcoin Cash and Bitcoin SV: the hashes to sign", "statement": "CreateRawTransactionHashForSig gives, per input, the double hash of the BIP143 message (version 1, hash type 0x41, the locking script as script code) for key-hash and nested witness inputs with a non-zero amount, and for multi-signature inputs the BIP143 message with segwit on or the legacy message with segwit off, together with the address or keys that must sign; it succeeds in no other case. Bitcoin Cash shows the main-net cash address of the key hash whatever network is given. A redeem script given beside a key-hash script is ignored. A witness script as the first script ends the program.", "quantifier": "every unsigned version-1 transaction (up to 252 inputs and outputs, scripts of up to 252 bytes), all requests, all hash functions with 32-byte results", "why_tests_cant": "Exact characterisation over all transactions and requests.", "anchors": ["bitcoincashTransaction/txHash.go: newTxHash, checkScriptType, getBytesForSig, getHashesForSig", "bitcoinsvTransaction/txHash.go: the same", "bitcoincashTransaction/transaction.go: CreateRawTransactionHashForSig"]}
{"id": "C111", "title": "Bitcoin Cash and Bitcoin SV: inserted signatures and their check", "statement": "Inserting one good signature and key per single-key hash gives the serialisation of the same transaction in which each input script (or witness, for nested witness inputs) pushes the DER signature with hash type 0x41 and the key; it is refused exactly when an input is a nested witness input and segwit is off. VerifyRawTransaction on the result returns exactly whether every signature and key is read back from its script (always so for r < 2^247 or s >= 2^231, see C28) and valid for its hash; the key is compared with nothing.", "quantifier": "every unsigned version-1 transaction, all single-key requests, all signatures of 64 bytes with non-zero halves and 33-byte keys, all hash, decompression and verification functions", "why_tests_cant": "Round trip through serialiser and parser for unbounded lists of inputs.", "anchors": ["bitcoincashTransaction/transaction.go: InsertSignatureIntoEmptyTransaction, VerifyRawTransaction", "bitcoinsvTransaction/transaction.go: the same"]}
{"id": "C112", "title": "Coinexchain: hashing, inserting and checking signatures", "statement": "As for Bitcoin with version 1, except that a key-hash or script-hash locking script may carry 30 more bytes, of any content, which are part of the hashed script and otherwise not looked at. The inserted transaction and the result of its check are as in C71 and C72.", "quantifier": "every unsigned version-1 transaction (up to 252 inputs and outputs), all requests, all hash functions", "why_tests_cant": "Exact characterisation over all transactions and requests.", "anchors": ["cxcTransaction/txHash.go: checkScriptType, getBytesForSig, getHashesForSig", "cxcTransaction/transaction.go: CreateRawTransactionHashForSig, InsertSignatureIntoEmptyTransaction, VerifyRawTransaction"]}
{"id": "C113", "title": "Horizen: hashing, inserting and checking signatures", "statement": "For every input the legacy message over the whole locking script is hashed and the address shown is that of bytes 3 to 22 of the script, whatever kind of script it is and whatever redeem script and amount are given; of a text that is not hexadecimal the bytes before the first bad digit are used. Inserting always succeeds with one good signature per hash: each input script pushes its signature and key. The check returns whether every signature and key is read back from its script (see C28) and valid for its hash.", "quantifier": "every unsigned version-1 transaction (up to 252 inputs and outputs), all requests with scripts of up to 252 bytes, all hash functions", "why_tests_cant": "Exact characterisation over all transactions, requests and malformed texts.", "anchors": ["zencashTransaction/txHash.go: newTxHash, getBytesForSig, getHashesForSig", "zencashTransaction/transaction.go: CreateRawTransactionHashForSig, InsertSignatureIntoEmptyTransaction, VerifyRawTransaction"]}
{"id": "C114", "title": "The generic Bitcoin-like driver creates exactly the described transaction, for test network addresses only", "statement": "CreateEmptyRawTransaction of btcLikeTxDriver succeeds exactly when there is at least one input and one output, every id is 64 hex digits and every address is a Base58Check text of 20 bytes with version byte 0x6F or 0xC4. The result is version 2, the inputs and outputs in the order given with empty scripts, the sequence that the lock time and the replaceable flag call for, and the lock time; counts are cut to one byte. No address beginning with tb1 is ever accepted, although the code decodes them. With at most 252 inputs and outputs the result is the consensus format, and DecodeRawTransaction shows it and refuses it with anything appended.", "quantifier": "every list of inputs and outputs, every lock time and flag", "why_tests_cant": "a test uses a few addresses; that no tb1 address can pass holds for every text", "anchors": ["btcLikeTxDriver/transaction.go:CreateEmptyRawTransaction", "btcLikeTxDriver/txOut.go:newTxOutForEmptyTrans", "btcLikeTxDriver/txStruct.go:newTransaction", "btcLikeTxDriver/txStruct.go:encodeToBytes"]}
{"id": "C115", "title": "DecodeRawTransaction of the generic driver: exact language with and without witnesses, and exactly when it panics", "statement": "For bytes without the segwit marker DecodeRawTransaction of btcLikeTxDriver never panics, succeeds exactly for the encodings of transactions whose counts and script lengths are single bytes, with nothing following, and shows the encoded fields. A marker not followed by 1 is refused. With the marker it succeeds exactly when the outputs are followed by at most as many witnesses as there are inputs and the lock time, each witness empty or a SIGHASH_ALL signature and a 33-byte key in which both integers take 32 bytes (or 33 when so announced; otherwise their length bytes only have to add up modulo 256), and when witnesses are missing only if the lock time begins with a byte other than 0 and 2. It panics exactly when, in place of such a witness, two items of that total length but another form follow: in particular every valid transaction with a signature integer below 2^247 makes it panic.", "quantifier": "every byte string, with or without marker", "why_tests_cant": "the panics depend on the size of random signature integers (about one signature in 256) and the accepted language on all lengths", "anchors": ["btcLikeTxDriver/txStruct.go:DecodeRawTransaction", "btcLikeTxDriver/witness.go:decodeFromSegwitBytes"]}
{"id": "C116", "title": "The generic driver returns the consensus hash of every input, and writes into native segwit entries", "statement": "For a transaction without witnesses, CreateRawTransactionHashForSig of btcLikeTxDriver succeeds exactly when there is one unlock entry per input and every locking script is a key hash script (the hash is that of the legacy message with SIGHASH_ALL), a script hash script, possibly with two more bytes, with a redeem script that is a 20-byte version 0 program or does not begin like one (BIP-143 message with that script code and the entry's amount), or a 20-byte version 0 program (BIP-143 message with the key hash script). The only change in the caller's data is that the entry of a native segwit input gets its locking script as redeem script, and a second call gives the same. It panics exactly when it reaches an entry with a cut locking script or with an empty or one-zero-byte redeem script.", "quantifier": "every transaction with 1 to 252 inputs and outputs and scripts up to 252 bytes, all unlock data", "why_tests_cant": "the message depends on every field of every input and output", "anchors": ["btcLikeTxDriver/transaction.go:CreateRawTransactionHashForSig", "btcLikeTxDriver/txStruct.go:getHashesForSig", "btcLikeTxDriver/txStruct.go:calcSegwitBytesForSig", "btcLikeTxDriver/txStruct.go:checkScriptType", "btcLikeTxDriver/txStruct.go:genScriptCodeFromRedeemScript"]}
{"id": "C117", "title": "Insertion into a generic driver transaction: exact bytes, and what it does to the caller's unlock data", "statement": "When no redeem script ends with CHECKMULTISIG, InsertSignatureIntoEmptyTransaction of btcLikeTxDriver succeeds exactly when there is one unlock entry and at least one signature per input, signatures and keys of 64 and 33 bytes, redeem scripts that are hex, and not a single input whose script ends in 0xAE. An entry without redeem script gives the input signature and key as script, or, for locking scripts beginning 0014, an empty script and a witness; an entry with one gives its length byte and bytes as script and a witness. As a consequence a single key hash input with a public key ending in 0xAE can never be completed; after CreateRawTransactionHashForSig on the same unlock data a native segwit input gets a script that consensus forbids; and a first insertion replaces the locking script of a fresh native segwit entry by 00, after which no hashing with that data succeeds.", "quantifier": "every transaction with 1 to 252 inputs and outputs, all signatures, all unlock data without multisignature redeem scripts", "why_tests_cant": "the result depends on the form of every input and on which functions were called before with the same slice", "anchors": ["btcLikeTxDriver/transaction.go:InsertSignatureIntoEmptyTransaction", "btcLikeTxDriver/txStruct.go:encodeToBytes", "btcLikeTxDriver/witness.go:encodeToScript", "btcLikeTxDriver/signaturepubkey.go:encodeToScript", "btcLikeTxDriver/multiSig.go:isMultiSig"]}
{"id": "C118", "title": "Verification by the generic driver: accepts exactly the signatures valid under the keys in the transaction, and panics on some transactions", "statement": "VerifyRawTransaction of btcLikeTxDriver returns true for a signed transaction exactly when every input is read (script signature of an input without witness, witness otherwise) and the signature read is valid under the key read for the consensus hash of that input, where for a nested input the script code is taken from the transaction itself. For every usual transaction the result of insertion, with fresh or already used unlock data, is therefore verified as the validity of the signatures handed in, whether or not the keys belong to the outputs spent. It panics whenever it reaches an input with a witness, an empty script, and an unlock entry whose locking script does not begin 0014; in particular when a transaction with a native first input is checked with the unlock data its insertion has changed.", "quantifier": "every signed transaction with 1 to 252 inputs and outputs, all unlock data, all signatures and keys", "why_tests_cant": "needs every order of calls on shared unlock data and every combination of input kinds", "anchors": ["btcLikeTxDriver/transaction.go:VerifyRawTransaction", "btcLikeTxDriver/txStruct.go:verifyHashes", "btcLikeTxDriver/txStruct.go:getHashesForSig", "btcLikeTxDriver/witness.go:decodeFromSegwitBytes", "btcLikeTxDriver/signaturepubkey.go:decodeFromScriptBytes"]}
{"id": "C119", "title": "SignEmptyRawTransaction of the generic driver signs correctly with at most one segwit input and drops witnesses otherwise", "statement": "SignEmptyRawTransaction of btcLikeTxDriver succeeds exactly when the hashes of all inputs can be computed, all private keys have 32 bytes and signing succeeds, and a sole input does not get a script ending in 0xAE; the result holds the script of every input but, of the witnesses, only that of the first segwit input and the empty ones. With at most one input that is not a key hash input it is the same as hashing, signing and inserting one by one, and VerifyRawTransaction accepts the result. With two or more the call still succeeds, the transaction has fewer witnesses than inputs, and VerifyRawTransaction accepts it under no unlock data.", "quantifier": "every transaction with 1 to 252 inputs and outputs, all unlock data, every signing function", "why_tests_cant": "the failure depends on how many inputs of which kind come in which order", "anchors": ["btcLikeTxDriver/transaction.go:SignEmptyRawTransaction", "btcLikeTxDriver/signaturepubkey.go:calcSignaturePubkey", "btcLikeTxDriver/txStruct.go:encodeToBytes", "btcLikeTxDriver/transaction.go:VerifyRawTransaction"]}
{"id": "C120", "title": "Multi-signature transactions of the generic driver: the address is right, the signed bytes fit two signatures only and the package cannot read them", "statement": "CreateMultiSig of btcLikeTxDriver succeeds exactly for 1 to n of n keys, n at most 16, keys of 33 or 65 bytes and a script of at most 520 bytes; it returns the script and the Base58Check address of its nested witness script hash, and paying that address pays that hash. InsertSignatureIntoEmptyTransaction for one such input writes exactly one byte string whatever the number of signatures: it always announces four witness items, so it is a consensus witness exactly for two signatures and a redeem script of at most 252 bytes. DecodeRawTransaction refuses every such transaction and VerifyRawTransaction answers false for it.", "quantifier": "all thresholds and key lists, every transaction with one multi-signature input and 1 to 252 outputs, any number of signatures, every redeem script ending with CHECKMULTISIG", "why_tests_cant": "the tests use 2-of-3 only and never verify the result", "anchors": ["btcLikeTxDriver/multiSig.go:CreateMultiSig,isMultiSig,calcRedeemHash", "btcLikeTxDriver/transaction.go:InsertSignatureIntoEmptyTransaction,VerifyRawTransaction", "btcLikeTxDriver/txStruct.go:encodeToBytes,DecodeRawTransaction"]}
{"id": "C121", "title": "Asking a decoded input for its transaction id changes the caller's transaction bytes; every second call gives the mirror image", "statement": "After DecodeRawTransaction, for every sequence of GetTxID calls on the inputs: a call returns the id as displayed (that of the creation request, in lower case) when the same input was asked an even number of times before, and its bytes the other way round when it was asked an odd number of times. The calls change the byte slice the caller passed to DecodeRawTransaction: afterwards exactly the inputs asked an odd number of times spend the mirrored id and everything else is as decoding left it (for the generic driver see C133 on what decoding does to witnesses). For a transaction without witnesses it is the original transaction only if those ids are palindromes, and it decodes without error.", "quantifier": "every transaction, with or without witness marker, every number of inputs, every history of calls", "why_tests_cant": "the effect depends on the history of calls and on what is done with the bytes later", "anchors": ["btcTransaction/txIn.go:GetTxID", "btcTransaction/txUtils.go:reverseBytes,reverseBytesToHex", "btcTransaction/txStruct.go:DecodeRawTransaction", "btcLikeTxDriver/txIn.go:GetTxID", "btcLikeTxDriver/utils.go:reverseBytes,reverseBytesToHex", "btcLikeTxDriver/txStruct.go:DecodeRawTransaction"]}
{"id": "C122", "title": "Inserting signatures into multi-signature inputs", "statement": "For every created transaction whose inputs are pay-to-key-hash, witness or standard m-of-n multi-signature inputs, filling in well-formed signatures (for a multi-signature input at least m optional entries) and calling InsertSignatureIntoEmptyTransaction gives exactly the serialisation of the same transaction in which the script of a multi-signature input is OP_0, the first m of the given signatures in minimal DER, and the push of the redeem script, with a correct compact-size length; with segwit on it is the 35-byte push of the script hash and the witness holds the signatures and redeem script. The call fails exactly when there is a segwit input and segwit is off. The witness always announces four items, so it is a consensus witness exactly when two signatures are used.", "quantifier": "all input and output lists, lock times, redeem scripts (any m of n up to 252 bytes), all placements of the given signatures among the keys, any mixture of input kinds", "why_tests_cant": "the number of combinations of kinds, thresholds, missing signatures and DER lengths around the 253-byte script length boundary is unbounded; tests use one two-of-three example, the only case in which the constant item count is right", "anchors": ["btcTransaction/transaction.go: InsertSignatureIntoEmptyTransaction", "btcTransaction/txHash.go: encodeToScript", "btcTransaction/txIn.go: toBytes, toSegwitBytes"]}
{"id": "C123", "title": "Verifying transactions with multi-signature inputs", "statement": "For every such transaction with readable signatures (and, without segwit, input scripts longer than 108 bytes), VerifyRawTransaction of the inserted text returns true exactly when every single-key signature is valid for its hash under the key given with it and, for every multi-signature input, each of the first m signatures given is valid under a key of the redeem script at the same or a later position than the number of signatures before it. Keys given beside the signatures of a multi-signature input, and signatures after the m-th, have no influence, and one key may account for several signatures.", "quantifier": "all mixed transactions, all thresholds and key lists, all signatures, any signature-verification function", "why_tests_cant": "needs the round trip of insertion and decoding for every script length and an exact account of the counting loop over all subsets of signatures", "anchors": ["btcTransaction/transaction.go: VerifyRawTransaction", "btcTransaction/txStruct.go: DecodeRawTransaction", "btcTransaction/txMultiSig.go: decodeMultiBytes"]}
{"id": "C124", "title": "Binance Chain: what a created transfer says and how its hash is signed", "statement": "CreateEmptyTransactionAndHash returns a text exactly when both addresses decode as bech32 with the prefix bnb. The text is then the SDK's sign document, for the chain Binance-Chain-Tigris, of one transfer of the given coin from the first address to the second, with the given account number, sequence, source and memo and no data; the hash is the SHA-256 of that very text. It never crashes. SignRawTransaction succeeds exactly on a hexadecimal hash of 32 bytes for which the curve produces a signature, and returns it with the low s.", "quantifier": "every pair of addresses, coin, amount, account number, sequence, source, memo, hash and key, and every behaviour of the SDK's functions", "why_tests_cant": "the relation between request, text and hash must hold for all requests", "anchors": ["binancechainTransaction/msg-send.go:CreateSendMsg", "binancechainTransaction/transaction.go:CreateEmptyTransactionAndHash", "binancechainTransaction/transaction.go:SignRawTransaction", "binancechainTransaction/utils.go:serilizeS"]}
{"id": "C125", "title": "Binance Chain: combining checks the signature for the main network, whatever chain the text names", "statement": "VerifyAndCombineRawTransaction returns a transaction exactly when the text is a sign document whose first message can be read, signature and key are hexadecimal of 64 and 33 bytes, the key is a point, and the signature is valid for the hash of the document's fields with the chain id Binance-Chain-Tigris; the transaction carries the first message, memo, source, data and that signature, and further messages are dropped. The chain named in the text makes no difference. It crashes exactly on a document without messages and on a 33-byte key that is not a point. A transfer that was created and signed is always combined into a transaction with exactly that transfer, except when the normalised signature has lost bytes (s high and the order minus s below 2^240).", "quantifier": "every text, signature and key, every behaviour of the SDK and of the curve meeting the stated contract", "why_tests_cant": "acceptance must be equivalent to validity of the signature for all texts", "anchors": ["binancechainTransaction/transaction.go:VerifyAndCombineRawTransaction", "binancechainTransaction/utils.go:NewPubkey"]}
{"id": "C126", "title": "Base58 with an alphabet of the caller's choice: which alphabets work", "statement": "NewBase58Alphabet stops the program exactly when the text does not have 58 characters; it does not look for repetitions. With 58 characters, every byte string comes back from encoding and decoding exactly when the characters are distinct and either all of them are ASCII or at least one lies beyond U+00FF. With Latin-1 letters (U+0080 to U+00FF) as the only ones outside ASCII the encoder writes text that is not valid UTF-8 and does not decode.", "quantifier": "all texts, all byte strings", "why_tests_cant": "the claim ranges over all alphabets and all byte strings", "anchors": ["addressEncoder/base58.go:NewBase58Alphabet", "addressEncoder/base58.go:Base58Encode", "addressEncoder/base58.go:Base58Decode"]}
{"id": "C127", "title": "Polkadot: which JSON texts are transactions, and what they mean", "statement": "NewTxStructFromJSON accepts a text exactly when it is JSON and either null or an object in which every member with the name of a field (without regard to case) is null or of the field's kind: a string, or an unsigned decimal integer of 64 (versions: 32) bits. Each field is then the value of the last member with its name that is not null, and empty or zero without one; other members are ignored. The text ToJSONString writes for a transaction with UTF-8 texts is read back as the same transaction.", "quantifier": "all texts, all transactions", "why_tests_cant": "the claim ranges over all texts with members repeated, reordered or misspelt in case", "anchors": ["polkadotTransaction/txStruct.go:NewTxStructFromJSON", "polkadotTransaction/txStruct.go:ToJSONString"]}
{"id": "C128", "title": "Polkadot: the text handed out for signing carries the whole transaction", "statement": "For every transaction for which CreateEmptyTransactionAndMessage succeeds and every signature, VerifyAndCombineTransaction on the text it returned gives what the transaction itself gives, whatever bytes its sender text holds. With a correct ed25519 scheme, creating, signing with SignTransaction and combining gives the signed extrinsic of that transaction and true.", "quantifier": "all transactions, transfer codes, keys, signatures and verification functions", "why_tests_cant": "the claim ranges over all transactions, including those with texts that are not UTF-8, and over all signatures", "anchors": ["polkadotTransaction/transaction.go:CreateEmptyTransactionAndMessage", "polkadotTransaction/transaction.go:SignTransaction", "polkadotTransaction/transaction.go:VerifyAndCombineTransaction"]}
{"id": "C129", "title": "FiiiCoin: the JSON texts carry the whole transaction", "statement": "The text of a transaction is read back as the same transaction. For every successful CreateEmptyTransactionAndMessage, VerifyAndCombineTransaction on its text with any signatures succeeds exactly when the created transaction with those signatures passes the check, and the text it returns reads back as the completed transaction. With a correct ed25519 scheme, creating, signing every message with SignTransactionMessage and combining succeeds, with the outputs as created and each input unlocked by its own signature.", "quantifier": "all inputs, outputs, times, keys, signatures and verification functions", "why_tests_cant": "the claim ranges over all transactions and all lists of signatures", "anchors": ["fiiiTransaction/transaction.go:CreateEmptyTransactionAndMessage", "fiiiTransaction/transaction.go:SignTransactionMessage", "fiiiTransaction/transaction.go:VerifyAndCombineTransaction", "fiiiTransaction/txStruct.go:TransactionMsg"]}
{"id": "C130", "title": "Filenet: the returned JSON text is the verified transfer", "statement": "VerifyAndCombineTransaction returns a text exactly when the empty transaction decodes and the signature verifies, and any JSON reader finds in it exactly the members txid, from, tocount, value, timestamp, transferdetails (to and value of every output) and sign of that transfer, with the numbers exact over the whole range. If CreateEmptyTransactionAndHash succeeds for standard addresses and SignTransaction signs its hash, combining returns the text whose txid is that hash, whose sender, number of outputs, total (modulo 2^64), time and signature are the given ones and whose outputs are the requested ones in address order.", "quantifier": "all transfers, keys, signatures and times", "why_tests_cant": "all amounts, addresses and numbers of outputs", "anchors": ["filenetTransaction/transaction.go: SignTransaction, VerifyAndCombineTransaction", "filenetTransaction/txStruct.go: Transfer, decodeRawTransaction"]}
{"id": "C131", "title": "V Systems: the JSON text that is sent is the payment that was signed", "statement": "CreateJSONRawForSendTransaction yields a text exactly when the hex text decodes as a payment, and any JSON reader finds in it exactly amount, an empty attachment, fee, feeScale, recipient, timestamp of that payment and the Base58 texts of the given key and signature. For every payment without attachment to a standard address, the result of SignTransaction passes VerifyTransaction and the text carries the requested amount, fee, fee scale, recipient and the creation time in whole microseconds. A payment created with an attachment can never be turned into such a text: the call fails.", "quantifier": "all payments, keys and signatures", "why_tests_cant": "all amounts, addresses, times", "anchors": ["virtualeconomyTransaction/transaction.go: CreateEmptyTransaction, SignTransaction, VerifyTransaction, CreateJSONRawForSendTransaction", "virtualeconomyTransaction/txDecode.go: TxStructDecode"]}
{"id": "C132", "title": "Transaction texts: exactly JSON is accepted, and only its meaning counts", "statement": "VerifyAndCombineTransaction of polkadotTransaction and fiiiTransaction refuse every text that is not JSON by RFC 8259. Two texts that say the same (white space, escapes in strings) give the same result. For Polkadot, members whose names differ without case may also be given in any order.", "quantifier": "all texts, signatures and verification functions", "why_tests_cant": "all ways of writing a text", "anchors": ["polkadotTransaction/txStruct.go:NewTxStructFromJSON", "polkadotTransaction/transaction.go:VerifyAndCombineTransaction", "fiiiTransaction/transaction.go:VerifyAndCombineTransaction"]}
{"id": "C133", "title": "Decoding a generic driver transaction with witnesses destroys the caller's bytes", "statement": "A successful DecodeRawTransaction of btcLikeTxDriver leaves the caller's bytes as they are when there is no segwit marker. With the marker it changes exactly the witnesses: in each one with a signature the 32 bytes of the second integer are written directly behind the first, over its own tag and length. Whenever the second integer of some signature does not begin with the byte 2, decoding the same slice again panics.", "quantifier": "every byte string that decodes", "why_tests_cant": "the effect is on the caller's memory, not on the result", "anchors": ["btcLikeTxDriver/txStruct.go:DecodeRawTransaction", "btcLikeTxDriver/witness.go:decodeFromSegwitBytes"]}
{"id": "C134", "title": "The data functions of the address encoder with the caller's own rules", "statement": "For each of the six checksum names CalcChecksum gives the first four bytes of the named hash and VerifyChecksum is true exactly when the last four bytes are the checksum of the rest; an unknown name gives no checksum and VerifyChecksum then crashes exactly on data of at least four bytes. For every alphabet of 58 distinct ASCII characters, every prefix and every suffix, DecodeData gives d exactly on the Base58 text of prefix, d, suffix and the checksum of these, which is what CatData, CalcChecksum and EncodeData build; it crashes exactly on a correctly checksummed text too short for prefix and suffix. With an encoding name other than base58, EncodeData gives the empty text and DecodeData gives no data and no error for every input.", "quantifier": "every alphabet, checksum rule, prefix, suffix, data and text", "why_tests_cant": "the caller chooses all parameters; tests use the built-in profiles", "anchors": ["addressEncoder/addressEncoder.go:CalcChecksum,VerifyChecksum,CatData,EncodeData,DecodeData,recoverData"]}
{"id": "C135", "title": "DecodeRawTransaction of the Bitcoin packages: exact language, and exactly when it panics", "statement": "DecodeRawTransaction of btcTransaction and of the six packages with the same text succeeds exactly for the package's version, 1 to 255 inputs and outputs, output scripts of 1 to 255 bytes and a lock time with nothing following. Without the segwit marker every input script of at most 65535 bytes is taken, with lengths above 252 or of the caller's choice in the long form, except those of 23 and 35 bytes. With the marker scripts have at most 108 bytes and decide the witness: none after a signature script, for an empty or 23-byte script two items of which the second takes 33 bytes whatever its length byte says, and for a 35-byte script, only with segwit on, four announced items followed by any number of signatures and a redeem script ending with CHECKMULTISIG. The fields shown are those of the text. With the marker different texts are shown differently; without it a script of 106 to 249 bytes whose length is written in the long form is shown as another script. It panics exactly on texts cut after the script of an input and before the end of its sequence number, one or two bytes before the end of a long script, or behind the announcement of a multi-signature witness.", "quantifier": "every byte string, both settings of segwit, every version", "why_tests_cant": "a decoder's language is a statement about all inputs", "anchors": ["btcTransaction/txStruct.go:DecodeRawTransaction", "bitcoincashTransaction/txStruct.go:DecodeRawTransaction", "bitcoinsvTransaction/txStruct.go:DecodeRawTransaction", "omniTransaction/txStruct.go:DecodeRawTransaction", "hcTransaction/txStruct.go:DecodeRawTransaction", "cxcTransaction/txStruct.go:DecodeRawTransaction", "zencashTransaction/txStruct.go:DecodeRawTransaction"]}
{"id": "C136", "title": "Bytom's decoder on every byte string", "statement": "The decoder accepts exactly the byte strings of this form, and shows their fields: the flag 7; any number of bytes of 0x80 or more, which are not shown, and a version below 0x80; a time range ending with its first byte below 0x80; 1 to 255 inputs and as many outputs, with nothing behind. An input has version 1, a commitment of at most 255 bytes whose inner length is right, and a witness that is empty, a signature of 64 bytes with a key of 32 behind any length but 0 and 1, or a multi-signature script. An output has version 1, a script of at most 255 bytes, and no witness. It panics exactly when a time range, or the amount of an input or output that is reached, never ends. Two accepted byte strings are shown as the same transaction exactly when they differ only in the bytes in front of the version and in the lengths in front of signatures.", "quantifier": "all byte strings", "why_tests_cant": "Unbounded byte strings; malleability is about all pairs of texts.", "anchors": ["bytomTransaction/txStruct.go: DecodeRawTransaction", "bytomTransaction/txIn.go: decodeCommitment", "bytomTransaction/txOut.go: decodeOutputScript"]}
{"id": "C137", "title": "Ontology's decoder on every byte string", "statement": "The decoder accepts exactly the byte strings that are the fields of a transaction (version 0, type 0xD1, nonce, gas price and limit, payer of 20 bytes, payload of 1 to 255 bytes, no attributes) followed either by a zero or by a count from 2 to 255 and that many pairs of a 64 byte signature and a 33 byte key, with nothing behind. It shows those fields and every pair by itself. No bytes make it panic, and different byte strings are never shown as the same transaction.", "quantifier": "all byte strings", "why_tests_cant": "Unbounded byte strings; injectivity is about all pairs of texts.", "anchors": ["ontologyTransaction/txStruct.go: DecodeRawTransaction", "ontologyTransaction/txSigPub.go: decodeSigPubBytes"]}
{"id": "C138", "title": "MOAC: every text that is accepted for signing", "statement": "Whatever text is given, it is accepted exactly when it is hexadecimal for one byte, nine items behind length bytes (the first may be a byte below 0x80 by itself), any byte for the chain and two empty strings, the first byte being the header of that list if there are fewer than 57 bytes and anything otherwise, and the signature is of 65 bytes, ends with 0 or 1, and recovers to and verifies for the named key on the hash of the text. What comes out is the list of those nine items with V for the network named then, R and S, so neither the first byte of a long text nor the chain byte that was signed is in it.", "quantifier": "all texts, signatures, keys and networks; every hash, recovery, compression and signature check", "why_tests_cant": "Universal over texts that the library did not make itself.", "anchors": ["moacchainTransaction/transaction.go: VerifyAndCombineRawTransaction", "moacchainTransaction/txStruct.go: decodeEmpty, addSig, ToBytes"]}
{"id": "C139", "title": "Chia addresses: every text that decodes, also outside ASCII", "statement": "AddressDecode with the Chia profile gives nonempty bytes d exactly for the text AddressEncode writes for d, in lower case or in capitals, of at most 90 bytes; in capitals the Kelvin sign U+212A is taken for K, so texts that are not ASCII are accepted. It gives no bytes and no error exactly for a bech32 or bech32m text of another prefix, with the older checksum, or of no data; everything else is an error and nothing panics. Up to 50 bytes come back from encoding and decoding, longer data are encoded to a text that is refused.", "quantifier": "all byte strings, all data", "why_tests_cant": "Unbounded byte strings, including invalid UTF-8 and characters outside ASCII.", "anchors": ["addressEncoder/addressEncoder.go: AddressDecode, AddressEncode", "addressEncoder/bech32m/bech32m.go: Bech32mDecode, Decode"]}
{"id": "C140", "title": "Transaction signers are found by names in any case, also outside ASCII", "statement": "After every history of RegTxSigner calls with any byte strings as names, GetTxSigner gives the signer of the first call whose name has the same upper-case text as the symbol. The 25 signers registered at start are found under exactly the symbols that spell their names in any case, where the long s U+017F counts as S and the dotless i U+0131 as I. SignTxHash without a registered signer treats exactly the symbols that spell NAS or TRX in this way by their rule and all other symbols by the general one.", "quantifier": "all histories of registrations, all symbols", "why_tests_cant": "Unbounded histories and all byte strings.", "anchors": ["signatureSet/init.go: RegTxSigner, GetTxSigner, init", "signatureSet/signature.go: SignTxHash"]}
{"id": "C141", "title": "The WaykiChain combiner on every text", "statement": "For every text, key and signature, VerifyAndCombineRawTransaction of waykichainTransaction returns true exactly when the text is hexadecimal of one of the types 2, 3, 4 and 11, the version 1 and then any bytes, the signature is valid for the hash of these bytes with the first two exchanged, and the signature can be put into DER form. The result is the text with the signature in DER form behind it, the minimal one for 33 to 65 bytes with no zero number; for longer signatures every length is cut to one byte. It panics exactly on the empty text, on one byte that is a type, on a key that does not decompress, and on a valid signature that cannot be put into DER form: one of at most 32 bytes, one that begins with 32 zero bytes, or one of at most 64 bytes with zeros only after the first 32. Otherwise it returns false.", "quantifier": "every text, every public key and every signature of any size, every hash, decompression and verification function", "why_tests_cant": "what may stand behind the two bytes and when it panics depends on arbitrary text and signature sizes; a test tries a few texts", "anchors": ["waykichainTransaction/transaction.go: VerifyAndCombineRawTransaction", "waykichainTransaction/txStruct.go: getHashFromEmptyRawTrans", "waykichainTransaction/txSignature.go: SigPub.ToBytes"]}
{"id": "C142", "title": "The Ripple combiner on every text", "statement": "For every text, VerifyAndCombinRawTransaction of rippleTransaction checks the signature for the bytes of the text without the letters s, and returns the text with the signature field in place of every s. The number and the places of the letters s are not checked: a text without s is returned as it is, unsigned, with the answer true, and with an s inside a byte other bytes are returned than were checked. With one s between two bytes the result is the checked transaction with the signature at that place. It panics exactly on a key that does not decompress and on a valid 64-byte signature with a zero number.", "quantifier": "every text, public key and signature, every hash, decompression and verification function", "why_tests_cant": "the place of the marker is arbitrary text; a test tries texts that the package itself created", "anchors": ["rippleTransaction/transaction.go: VerifyAndCombinRawTransaction", "rippleTransaction/txStruct.go: getHashFromEmptyRawHex, getTxnSignatureBytes", "rippleTransaction/txUtils.go: getSignatureBytes"]}
{"id": "C143", "title": "The HyperCash combiner on every text", "statement": "For every text and every list of signatures and keys of any size, VerifyAndCombineTransaction of hypercashTransaction succeeds exactly when the text is a transaction in hexadecimal whose third and fourth byte are zero, then for every signature a colon, a lock script, a slash and the beginning of a witness, there is at least one signature, every signature is valid for the hash of the transaction, the number of its input and its lock script, and every signature can be put into a script. The result is the transaction, the number of signatures and the witnesses; the script of a 64-byte signature with a 33-byte key is its minimal DER form, and for other sizes every length is cut to one byte. It panics exactly when a text with the right number of parts has a transaction shorter than three bytes, or three bytes with the last one zero, or when the first input that is not accepted has a key that does not decompress or a valid signature that cannot be put into a script: one of at most 32 bytes, one that begins with 32 zero bytes, or one of at most 64 bytes with zeros only after the first 32.", "quantifier": "every text and every list of signatures and keys of any size, every hash, decompression and verification function", "why_tests_cant": "the parts of the text and the list of signatures have any length; a test tries a few of them", "anchors": ["hypercashTransaction/transaction.go: VerifyAndCombineTransaction", "hypercashTransaction/txSignature.go: SigPub.encodeToScript"]}
{"id": "C144", "title": "The Ontology combiner on every text", "statement": "For every text and every list of signatures, VerifyAndCombineRawTransaction of ontologyTransaction returns true exactly when the text is a transaction in hexadecimal that is unsigned or has 2 to 255 signatures, and every given signature is valid for the hash of all bytes but the last. If the transaction was unsigned the result has the given signatures. If it had signatures, the result has the first of them, which is not checked, and no other: the given signatures are lost, and with no given signature the answer is true as well. It panics exactly when the first given signature that is not valid has a key that does not decompress.", "quantifier": "every text, every list of signatures and keys of any size, every hash, decompression and verification function", "why_tests_cant": "texts that already carry signatures are arbitrary input; a test tries the texts the package created", "anchors": ["ontologyTransaction/transaction.go: VerifyAndCombineRawTransaction", "ontologyTransaction/txStruct.go: DecodeRawTransaction, ToBytes", "ontologyTransaction/txSigPub.go: toBytes, decodeSigPubBytes"]}
{"id": "C145", "title": "Base64: what Decode accepts and writes", "statement": "For every Encoding made by NewEncoding, that is from any 64 bytes without line breaks, every text and every destination, the method Decode reports no error exactly when the text, without its line breaks, consists of characters of the alphabet and the padding of an incomplete last group; then the destination begins with the bytes the text stands for and n is their number. On any other text it reports an error and has decoded the longest beginning of the text that is of that form. A character that is repeated in the alphabet stands for its last place, and there is no padding when the equals sign is in the alphabet. Bits of the last character that do not fill a byte are not looked at, and up to two bytes behind the result may be overwritten. It panics exactly when a beginning of the text of that form has more groups than the destination has room for, three bytes a group; a destination of DecodedLen(len(text)) bytes is always enough.", "quantifier": "every alphabet NewEncoding takes, text and destination of any length", "why_tests_cant": "the three loops of different width hand over to each other at places that depend on every character and on the lengths; a test tries a few texts", "anchors": ["addressEncoder/base64.go: NewEncoding, Encoding.Decode, decodeQuantum, decode32, decode64, DecodedLen"]}
{"id": "C146", "title": "FiiiCoin: what any text means to VerifyAndCombineTransaction", "statement": "For every text, VerifyAndCombineTransaction reads it as a transaction exactly when it is JSON, null or an object, and every member with the name of a field (without case) has a value that suits the field: null, a string for a text, a whole number of 64 bits for a number, an array of nulls and objects with such members for a list. Every number and text of the transaction is then the last member of its name that is not null, zero or empty when there is none. A list has as many elements as the last array given for it, and each element is read the same way from the members given for its place in all the arrays since the last null or empty one. Members with different names may come in any order. The signed text is the text of the combination of the transaction so read, with outputs given as [] written as [] and outputs missing or null written as null, and it is read back as that transaction.", "quantifier": "every text of any length, any order, number and spelling of members, any signatures", "why_tests_cant": "members can be missing, repeated, null, unknown or in any order and case, and an array given twice leaves parts of the first in the second; the combinations have no bound", "anchors": ["fiiiTransaction/transaction.go: VerifyAndCombineTransaction", "fiiiTransaction/txStruct.go: TransactionMsg", "fiiiTransaction/txInput.go: InputMsg", "fiiiTransaction/txOutput.go: OutputMsg"]}
{"id": "C147", "title": "Aliencoin, Verge and Vollar: when verification panics", "statement": "For every text and all signatures, verifying panics exactly in these cases. Aliencoin and Verge: the text is a transaction with as many lock scripts and signatures as inputs, and either the public key of some signature cannot be expanded while all signatures before it are good, or all signatures are good and the script of one cannot be built. Vollar: the same kind of text, lock scripts in hexadecimal, and some signature, whatever the others are, has a key that cannot be expanded or a script that cannot be built. For Verge and Vollar the script cannot be built exactly if the signature has fewer than 32 bytes, its first 32 bytes are zero, or the rest has at most 32 bytes and all are zero; for Aliencoin exactly if it has fewer than 32 bytes, every other byte of the first 32 is zero, or the rest has at most 62 bytes and every other one is zero. Reading the text never panics.", "quantifier": "every text, every list of signatures and keys of any length, every expansion and verification function", "why_tests_cant": "the panics depend on single bytes of a signature and on what the other signatures are; a test does not hit them", "anchors": ["aliencoinTransaction/transaction.go: VerifyAndCombineTransaction", "vergeTransaction/transaction.go: VerifyAndCombineTransaction", "vollarTransaction/transaction.go: VerifyAndCombineRawTransaction", "aliencoinTransaction/txStruct.go: DecodeTxStructRaw", "vergeTransaction/txSigPub.go: SigPub.ToBytes"]}
{"id": "C148", "title": "Which networks' addresses a Bitcoin network profile pays", "statement": "For every key hash or script hash address of Bitcoin, Bitcoin Cash, Litecoin or their test networks, creating a transaction with the profile of any of these networks pays it exactly if the version byte is one of that network, and to the script of that kind; otherwise no transaction is created. So Bitcoin script addresses are payable on Litecoin (version 5 is in both) and all test addresses of Bitcoin on the Litecoin test network, but main network addresses never on a test network. Coinexchain refuses Litecoin's newer script addresses. Segwit addresses are paid exactly if their human-readable part begins with the network's: Bitcoin's regression test addresses (bcrt1...) are paid on the main network. Horizen pays its own main network addresses only. With the Zcash profiles btcTransaction pays no base58 address, bitcoincashTransaction and bitcoinsvTransaction exactly those with Zcash's two-byte versions.", "quantifier": "every 20-byte hash, every pair of networks, every amount, every segwit program of 20 or 32 bytes and every lower-case human-readable part", "why_tests_cant": "that no address of another network slips through must hold for all hashes; tests use a few addresses", "anchors": ["btcTransaction/txProfile.go: BTCMainnetAddressPrefix, LTCMainnetAddressPrefix", "btcTransaction/txOut.go: newTxOutForEmptyTrans", "bitcoincashTransaction/txOut.go: newTxOutForEmptyTrans", "cxcTransaction/txOut.go: newTxOutForEmptyTrans", "zencashTransaction/txProfile.go: ZENMainnetAddressPrefix"]}
{"id": "C149", "title": "Which texts are bech32 addresses, what they mean and which crash", "statement": "Decoding a bech32 text succeeds exactly if the text is: one or more letters, one '1', and at least eight bech32 symbols, the last six being the BIP 173 checksum over the letters as written, all in one case; or a text with no '1' at all, whose characters after the first are at least eight such symbols, with the checksum taken over the whole text as readable part followed by them. The bytes are the lowest whole bytes of the number formed by the symbols before the checksum (the 32 bytes half a byte further up when there are 33). It crashes exactly on the empty text and on texts of that form with fewer than eight symbols; every other text is refused with an error. An address in capitals, which BIP 173 allows, is always refused when its readable part has at most four letters.", "quantifier": "every text of any length and content", "why_tests_cant": "the accepted set and the crashing set are infinite; no sample shows that nothing else is accepted or crashes", "anchors": ["addressEncoder/bech32/bech32.go: Decode, verifyChecksum, unecxtendPayload", "btcTransaction/bech32.go: Bech32Decode", "omniTransaction/bech32.go", "cxcTransaction/bech32.go", "zencashTransaction/bech32.go", "hcTransaction/bech32.go"]}
{"id": "C150", "title": "When creating, hashing and signing a Bitcoin-family transaction crashes", "statement": "Creation crashes exactly if there is at least one input, every input names a transaction by 64 hex digits, and the first address that cannot be paid is a text that crashes the address reader: a bech32 text as in C149, or base58 text of fewer than four bytes, or of fewer than 24 bytes with a correct checksum. Hash creation in btcTransaction, omniTransaction, hcTransaction and cxcTransaction crashes exactly on the transaction texts that crash the transaction decoder (C135), whatever scripts are to be unlocked; in bitcoincashTransaction and bitcoinsvTransaction only a native witness script adds to that, in zencashTransaction only a script text that does not begin with 46 hex digits. Signature insertion crashes exactly on the texts that crash the decoder, or if the script kinds pass the first check and the first entry that cannot be written is missing, has no signature slot, or has a signature with r or s equal to zero among those to be written.", "quantifier": "every list of inputs, outputs, unlocking requests and signature entries, every transaction text, any hash function and address prefixes", "why_tests_cant": "a crash ends the caller's process; that nothing else can crash needs all inputs", "anchors": ["btcTransaction/transaction.go: CreateEmptyRawTransaction, CreateRawTransactionHashForSig, InsertSignatureIntoEmptyTransaction", "btcTransaction/txOut.go: newTxOutForEmptyTrans", "btcTransaction/txHash.go: encodeToScript", "bitcoincashTransaction/transaction.go", "bitcoinsvTransaction/transaction.go", "omniTransaction/transaction.go", "hcTransaction/transaction.go", "cxcTransaction/transaction.go", "zencashTransaction/transaction.go"]}
{"id": "C151", "title": "When checking the signatures of a Bitcoin-family transaction crashes", "statement": "VerifyRawTransaction of single-key scripts crashes exactly if the transaction text crashes the decoder (C135), or if the transaction has as many inputs as there are requests, its hashes can be computed, every input shows a signature and key that can be read (an unsigned input shows none), and, going through the inputs in order, a key that is no point of the curve comes before the first false signature. So an unsigned transaction crashes the check if the missing key is taken for no point of the curve; the expectation that the answer is no does not hold. If every key is a point of the curve only the decoder can crash.", "quantifier": "every transaction text and list of single-key unlocking requests, any hash function, address prefixes, point decompression and signature check; inputs are unsigned or single-key", "why_tests_cant": "a crash ends the caller's process; that nothing else can crash needs all transactions", "anchors": ["btcTransaction/transaction.go: VerifyRawTransaction", "btcTransaction/txHash.go", "bitcoincashTransaction/transaction.go: VerifyRawTransaction", "bitcoinsvTransaction/transaction.go: VerifyRawTransaction", "cxcTransaction/transaction.go: VerifyRawTransaction", "zencashTransaction/transaction.go: VerifyRawTransaction"]}
{"id": "C152", "title": "When the generic Bitcoin-like driver crashes while creating or signing", "statement": "In btcLikeTxDriver, CreateEmptyRawTransaction crashes exactly if every input names a transaction (64 hex digits) and the first address that cannot be paid is either a tb1 text that crashes the bech32 reader (well spelt, with fewer than two characters before the six of the checksum) or base58 text of fewer than four bytes or of the checksum of nothing. InsertSignatureIntoEmptyTransaction crashes exactly if the text crashes the decoder, or the transaction has outputs and as many inputs as requests, at least one signature is given, and: for a first request with a shared lock, a signature of 1 to 32 bytes is reached before one that is refused; otherwise, going through the requests in order, one has no signature left, or one for a key hash has a whole signature with r or s zero, before any is refused. So too few signatures end the process; the expectation that an error is returned does not hold.", "quantifier": "every list of inputs, outputs, signatures and unlocking requests, every transaction text and hash function of at least four bytes", "why_tests_cant": "a crash ends the caller's process; that nothing else can crash needs all inputs", "anchors": ["btcLikeTxDriver/transaction.go: CreateEmptyRawTransaction", "btcLikeTxDriver/txOut.go", "btcLikeTxDriver/txIn.go", "btcLikeTxDriver/bech32.go", "btcLikeTxDriver/txStruct.go: encodeToBytes", "btcLikeTxDriver/witness.go", "btcLikeTxDriver/transaction.go: InsertSignatureIntoEmptyTransaction"]}
{"id": "C153", "title": "Which requests crash the drivers outside the Bitcoin family", "statement": "Creating a payment never ends the program in the Ripple, WaykiChain, FileNet and Polkadot drivers (nor does combining a Polkadot signature), whatever texts are passed. In the others it does exactly in these cases. MOAC: the recipient has fewer than two characters. V Systems: the recipient is the base58 text of fewer than four bytes. BigBang: the recipient is empty, and the anchor and all inputs are valid. Cosmos: the fee is nil or lists no coin. HyperCash: the inputs are valid and the first output that cannot be paid has a base58 text of fewer than four bytes, or of fewer than 24 with a correct checksum. FiiiCoin: likewise with fewer than four bytes, or with a correct checksum and fewer bytes than the expected prefix, which begins with them. Combining a Mateverse transaction does exactly when a key is no point before any input fails, or when all inputs verify, the text is readable and a signature with a zero half comes before any bad id.", "quantifier": "every request: all texts, amounts, numbers of inputs and outputs, alphabets of 58 distinct characters, hash functions, key decompression and signature verification functions", "why_tests_cant": "a crash needs one particular input among infinitely many; tests show that chosen requests do not crash, not that no other one does, and not that the listed causes are all", "anchors": ["moacchainTransaction/transaction.go:CreateEmptyRawTransactionAndHash", "virtualeconomyTransaction/transaction.go:CreateEmptyTransaction", "bigbangTransaction/transaction.go:CreateEmptyTransactionAndHash", "cosmosTransaction/txStruct.go:NewTxStruct", "hypercashTransaction/transaction.go:CreateEmptyTransactionAndHash", "hypercashTransaction/transaction.go:CreateOmniEmptyTransactionAndHash", "fiiiTransaction/transaction.go:CreateEmptyTransactionAndMessage", "mateverseTransaction/transaction.go:VerifyAndCombineTransaction", "polkadotTransaction/transaction.go:VerifyAndCombineTransaction", "rippleTransaction/transaction.go:CreateEmptyRawTransactionAndHash", "waykichainTransaction/transaction.go:CreateEmptyRawTransactionAndHash", "filenetTransaction/transaction.go:CreateEmptyTransactionAndHash"]}
{"id": "C154", "title": "Exactly which requests crash the Bytom driver", "statement": "Creating a Bytom transaction crashes exactly when: the first address that does not begin with the prefix of the network (tm or bm) has fewer than two characters; or all addresses begin with it and the first input that cannot be built has a hexadecimal source and a position of 2^56 or more, or a good position, a hexadecimal asset and an amount of 2^56 or more; or all inputs can be built and the first output that cannot has a payable address and an amount of 2^56 or more; or everything else can be built and the time range is 2^56 or more. Computing the hashes crashes exactly when the text leaves a time range or an amount unended, or the first input whose program has neither 22 nor 34 bytes has one of a single byte. Putting signatures in crashes exactly when the text leaves a number unended, or the entries up to some point are correctly filled in and the next one has no place for a signature, or is correctly filled in and lies beyond the inputs. Verifying crashes exactly when the text leaves a number unended or an input with neither a signature nor a 34-byte program follows inputs that are all accepted. Making a multisignature address, reading its script and padding a hash never crash.", "quantifier": "every list of inputs and outputs with 64-bit numbers, every time range, either network, every text, every list of filled-in hashes, every signature check and every hash function", "why_tests_cant": "which element crashes depends on everything before it being acceptable, over unbounded lists and texts", "anchors": ["bytomTransaction/transaction.go:CreateEmptyRawTransaction", "bytomTransaction/transaction.go:CreateRawTransactionHashForSig", "bytomTransaction/transaction.go:InsertSignatureIntoEmptyTransaction", "bytomTransaction/transaction.go:VerifyRawTransaction", "bytomTransaction/txMultiSig.go:CreateMultiSig", "bytomTransaction/txHash.go:PadMultiSig"]}
{"id": "C155", "title": "When checking a Bitcoin-family transaction crashes, for single and shared keys", "statement": "Checking a transaction against the scripts it unlocks crashes exactly when the text crashes the decoder, or it decodes to as many inputs as there are scripts, hashes exist for all of them, and one of two things happens. Either the first input that does not fit its script is one that crashes: it shows a readable single signature where keys are shared, its list of signatures makes the reader crash (an empty script behind a two-byte length, a redeem script of fewer than three bytes, or one that ends before the number of keys it gives), or it shows more signatures or keys than its script has. Or all inputs fit, and the first one not accepted meets a key that is no point of the curve: the only key, or one reached while each signature in turn is tried against the keys from the number already accepted on. When every key is a point only the decoder and an input that does not fit crash. A single signature for a shared script, shared signatures for a single-key script, and a transaction nobody has signed (if the empty key is no point) crash instead of being refused.", "quantifier": "every text, every list of scripts to unlock (bitcoincash and bitcoinsv: no native witness script; zencash: locking scripts of 23 bytes or more), every decompression and signature check", "why_tests_cant": "an attacker chooses every byte of the input scripts, and which key is looked at depends on all earlier signatures", "anchors": ["btcTransaction/transaction.go:VerifyRawTransaction", "btcTransaction/txMultiSig.go:decodeMultiBytes", "cxcTransaction/transaction.go:VerifyRawTransaction", "bitcoincashTransaction/transaction.go:VerifyRawTransaction", "bitcoinsvTransaction/transaction.go:VerifyRawTransaction", "zencashTransaction/transaction.go:VerifyRawTransaction"]}
{"id": "C156", "title": "Exactly when checking a transaction with the generic Bitcoin-like driver crashes", "statement": "Checking a signed transaction with the generic Bitcoin-like driver ends the program exactly when the text is hex and decoding its bytes does, or there is one request per input and one of these holds: the first input without a readable signature is one whose witness is missing (the transaction carries some, but not one for each input) or one with a witness, an empty input script and a lock that is not native segwit; or all signatures are readable and the first request that cannot be hashed has a cut locking script or a script hash with an empty redeem script; or all are hashed and a key that is no point of the curve is met before a signature that fails. In particular a transaction without the segwit marker can only crash the check through its requests or such a key.", "quantifier": "All texts, requests, hash functions, key decompressions and signature checks", "why_tests_cant": "The crash depends on the order in which inputs are read, hashed and checked, and on every combination of witness, script and request", "anchors": ["btcLikeTxDriver/transaction.go: VerifyRawTransaction", "btcLikeTxDriver/txStruct.go: getHashesForSig, verifyHashes, checkScriptType"]}
{"id": "C157", "title": "Exactly when the generic Bitcoin-like driver crashes while hashing and signing", "statement": "For every text and every list of requests, with or without signatures in the transaction, making the hashes to sign with the generic Bitcoin-like driver ends the program exactly when the text is hex and decoding its bytes does, or there is one request per input and the first request that cannot be hashed has a cut locking script or a script hash with an empty redeem script. Signing in one call crashes in exactly the same cases, if the signature library does not crash and gives signatures without zero integers. Signing given hashes never crashes.", "quantifier": "All texts, requests, hash functions and signature functions", "why_tests_cant": "A cut or missing script crashes or is refused depending on the requests before it, so no sample of requests settles it", "anchors": ["btcLikeTxDriver/transaction.go: CreateRawTransactionHashForSig, SignEmptyRawTransaction, SignRawTransactionHash", "btcLikeTxDriver/txStruct.go: getHashesForSig, checkScriptType"]}
{"id": "C158", "title": "Exactly when hashing with Bitcoin Cash, Bitcoin SV and ZenCash crashes", "statement": "For every text, list of scripts to unlock and segwit switch, making the hashes to sign with bitcoincashTransaction or bitcoinsvTransaction ends the program exactly when the text is hex and reading its bytes does, or there is one entry per input and the first entry that gets no hash is a 22-byte witness script with signature type 0x41, an amount and an empty redeem text. With zencashTransaction that first entry is one whose locking script text does not begin with 23 bytes in hex, asking for signature type 1 in a transaction without segwit marker.", "quantifier": "All texts, scripts to unlock, amounts, signature types, prefixes and hash functions", "why_tests_cant": "Whether a bad entry crashes depends on the entries before it, on its amount and on the marker of the transaction, so no sample of entries settles it", "anchors": ["bitcoincashTransaction/txHash.go: newTxHash, getBytesForSig, getHashesForSig", "bitcoinsvTransaction/txHash.go: newTxHash, getHashesForSig", "zencashTransaction/txHash.go: newTxHash, getHashesForSig", "bitcoincashTransaction/transaction.go: CreateRawTransactionHashForSig"]}
{"id": "C159", "title": "Exactly when creating a token transfer crashes", "statement": "For every list of inputs and outputs and every Omni message, creating the transaction ends the program exactly when there is an input, all inputs name transactions by 64 hex digits, and either the first output address that cannot be paid is one that crashes address reading, or there is an output, all can be paid, the message freezes or unfreezes tokens and its address crashes base58 reading. For asset transfers with cxcTransaction it crashes exactly when the inputs are so named and either the first transfer that cannot be made has a crashing address, where an address with the bech32 prefix also needs a readable bech32 form and a hex asset id to get that far, or all transfers can be made and the change address crashes.", "quantifier": "All inputs, outputs, Omni messages, asset transfers, lock times, prefixes and hash functions", "why_tests_cant": "The order in which addresses and ids are read decides between an error and a crash, over unboundedly many outputs and address texts", "anchors": ["omniTransaction/txOut.go: newTxOutForEmptyTrans", "omniTransaction/txOmni.go: getPayload", "bitcoincashTransaction/txOut.go: newOmniTxOutForEmptyTrans", "cxcTransaction/txAsset.go: getTransferAssetWithPayload"]}
{"id": "C160", "title": "The scripts built for signatures and keys of every size", "statement": "For every signature and key, also of other sizes than 64 and 33 bytes, the encoders of btcTransaction, btcLikeTxDriver, hypercashTransaction, vergeTransaction, vollarTransaction and aliencoinTransaction build exactly this script: the first 32 bytes and the rest of the signature, each as an integer with a zero byte in front of a first byte of 128 or more and otherwise without its leading zero bytes, up to 32 of them (Aliencoin removes as many bytes as there are zeros at the even places before the first other byte there; witnesses of the generic driver keep all bytes), then the type and the key; every length is cut to one byte. The integers keep their value and are not negative, and a part of up to 33 bytes that is not zero is in minimal form. The encoders of Bitcoin and HyperCash panic exactly on a signature of at most 32 bytes, one that begins with 32 zero bytes, and one of at most 64 bytes with zeros only after the first 32; the witness encoder exactly on at most 32 bytes.", "quantifier": "every signature, key and type, of any size", "why_tests_cant": "sizes are not checked by these encoders, and the lengths wrap only beyond 255 bytes; a test tries 64-byte signatures", "anchors": ["btcTransaction/SignaturePubkey.go: encodeSignatureToScript, encodeToScript", "btcLikeTxDriver/witness.go: TxWitness.encodeToScript", "hypercashTransaction/txSignature.go: SigPub.encodeToScript", "vergeTransaction/txSigPub.go: SigPub.ToBytes", "aliencoinTransaction/txSigPub.go: SigPub.ToBytes"]}
