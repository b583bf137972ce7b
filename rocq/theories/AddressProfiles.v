(** The address profiles of /repo/addressEncoder/encoderProfile.go, one definition per variable, in
    source order (generated from the source text; the line number is cited on each). *)
From Coq Require Import String ZArith List.
From Verif Require Import Go AddressModel.
Import ListNotations.
Open Scope Z_scope.

Definition BTCAlphabet : list Z := str "123456789ABCDEFGHJKLMNPQRSTUVWXYZabcdefghijkmnopqrstuvwxyz". (* encoderProfile.go:4 *)
Definition XMRAlphabet : list Z := str "123456789ABCDEFGHJKLMNPQRSTUVWXYZabcdefghijkmnopqrstuvwxyz". (* encoderProfile.go:5 *)
Definition OntAlphabet : list Z := str "123456789ABCDEFGHJKLMNPQRSTUVWXYZabcdefghijkmnopqrstuvwxyz". (* encoderProfile.go:6 *)
Definition XRPAlphabet : list Z := str "rpshnaf39wBUDNEGHJKLM4PQRST7VWXYZ2bcdeCg65jkm8oFqi1tuvAxyz". (* encoderProfile.go:7 *)
Definition ZECAlphabet : list Z := str "123456789ABCDEFGHJKLMNPQRSTUVWXYZabcdefghijkmnopqrstuvwxyz". (* encoderProfile.go:8 *)
Definition BTCBech32Alphabet : list Z := str "qpzry9x8gf2tvdw0s3jn54khce6mua7l". (* encoderProfile.go:9 *)
Definition BTMBech32Alphabet : list Z := str "qpzry9x8gf2tvdw0s3jn54khce6mua7l". (* encoderProfile.go:10 *)
Definition LTCAlphabet : list Z := str "123456789ABCDEFGHJKLMNPQRSTUVWXYZabcdefghijkmnopqrstuvwxyz". (* encoderProfile.go:11 *)
Definition LTCBech32Alphabet : list Z := str "qpzry9x8gf2tvdw0s3jn54khce6mua7l". (* encoderProfile.go:12 *)
Definition BCHLegacyAlphabet : list Z := str "123456789ABCDEFGHJKLMNPQRSTUVWXYZabcdefghijkmnopqrstuvwxyz". (* encoderProfile.go:13 *)
Definition BCHCashAlphabet : list Z := str "qpzry9x8gf2tvdw0s3jn54khce6mua7l". (* encoderProfile.go:14 *)
Definition XTZAlphabet : list Z := str "123456789ABCDEFGHJKLMNPQRSTUVWXYZabcdefghijkmnopqrstuvwxyz". (* encoderProfile.go:15 *)
Definition HCAlphabet : list Z := str "123456789ABCDEFGHJKLMNPQRSTUVWXYZabcdefghijkmnopqrstuvwxyz". (* encoderProfile.go:16 *)
Definition QTUMAlphabet : list Z := str "123456789ABCDEFGHJKLMNPQRSTUVWXYZabcdefghijkmnopqrstuvwxyz". (* encoderProfile.go:17 *)
Definition DCRDAlphabet : list Z := str "123456789ABCDEFGHJKLMNPQRSTUVWXYZabcdefghijkmnopqrstuvwxyz". (* encoderProfile.go:18 *)
Definition NASAlphabet : list Z := str "123456789ABCDEFGHJKLMNPQRSTUVWXYZabcdefghijkmnopqrstuvwxyz". (* encoderProfile.go:19 *)
Definition TRONAlphabet : list Z := str "123456789ABCDEFGHJKLMNPQRSTUVWXYZabcdefghijkmnopqrstuvwxyz". (* encoderProfile.go:20 *)
Definition VSYSAlphabet : list Z := str "123456789ABCDEFGHJKLMNPQRSTUVWXYZabcdefghijkmnopqrstuvwxyz". (* encoderProfile.go:21 *)
Definition ATOMBech32Alphabet : list Z := str "qpzry9x8gf2tvdw0s3jn54khce6mua7l". (* encoderProfile.go:22 *)
Definition XCHBech32Alphabet : list Z := str "qpzry9x8gf2tvdw0s3jn54khce6mua7l". (* encoderProfile.go:23 *)
Definition BTC_mainnetAddressP2PKH : addr_type := mkAddr (str "base58") BTCAlphabet (str "doubleSHA256") (str "h160") 20 [0] []. (* encoderProfile.go:42 *)
Definition BTC_mainnetAddressP2SH : addr_type := mkAddr (str "base58") BTCAlphabet (str "doubleSHA256") (str "h160") 20 [5] []. (* encoderProfile.go:43 *)
Definition BTC_mainnetAddressBech32V0 : addr_type := mkAddr (str "bech32") BTCBech32Alphabet (str "bc") (str "h160") 20 [0] []. (* encoderProfile.go:44 *)
Definition BTC_mainnetPrivateWIF : addr_type := mkAddr (str "base58") BTCAlphabet (str "doubleSHA256") (str "") 32 [128] []. (* encoderProfile.go:45 *)
Definition BTC_mainnetPrivateWIFCompressed : addr_type := mkAddr (str "base58") BTCAlphabet (str "doubleSHA256") (str "") 32 [128] [1]. (* encoderProfile.go:46 *)
Definition BTC_mainnetPublicBIP32 : addr_type := mkAddr (str "base58") BTCAlphabet (str "doubleSHA256") (str "") 74 [4; 136; 178; 30] []. (* encoderProfile.go:47 *)
Definition BTC_mainnetPrivateBIP32 : addr_type := mkAddr (str "base58") BTCAlphabet (str "doubleSHA256") (str "") 74 [4; 136; 173; 228] []. (* encoderProfile.go:48 *)
Definition BTC_testnetAddressP2PKH : addr_type := mkAddr (str "base58") BTCAlphabet (str "doubleSHA256") (str "h160") 20 [111] []. (* encoderProfile.go:49 *)
Definition BTC_testnetAddressP2SH : addr_type := mkAddr (str "base58") BTCAlphabet (str "doubleSHA256") (str "h160") 20 [196] []. (* encoderProfile.go:50 *)
Definition BTC_testnetAddressBech32V0 : addr_type := mkAddr (str "bech32") BTCBech32Alphabet (str "tb") (str "h160") 20 [0] []. (* encoderProfile.go:51 *)
Definition BTC_testnetPrivateWIF : addr_type := mkAddr (str "base58") BTCAlphabet (str "doubleSHA256") (str "") 32 [239] []. (* encoderProfile.go:52 *)
Definition BTC_testnetPrivateWIFCompressed : addr_type := mkAddr (str "base58") BTCAlphabet (str "doubleSHA256") (str "") 32 [239] [1]. (* encoderProfile.go:53 *)
Definition BTC_testnetPublicBIP32 : addr_type := mkAddr (str "base58") BTCAlphabet (str "doubleSHA256") (str "") 74 [4; 53; 135; 207] []. (* encoderProfile.go:54 *)
Definition BTC_testnetPrivateBIP32 : addr_type := mkAddr (str "base58") BTCAlphabet (str "doubleSHA256") (str "") 74 [4; 53; 131; 148] []. (* encoderProfile.go:55 *)
Definition XMR_mainnetPublicAddress : addr_type := mkAddr (str "XMR") XMRAlphabet (str "keccak256") (str "") 64 [18] []. (* encoderProfile.go:58 *)
Definition XMR_mainnetPublicSubAddress : addr_type := mkAddr (str "XMR") XMRAlphabet (str "keccak256") (str "") 64 [42] []. (* encoderProfile.go:59 *)
Definition XMR_mainnetPublicIntegratedAddress : addr_type := mkAddr (str "XMR") XMRAlphabet (str "keccak256") (str "payID") 72 [19] []. (* encoderProfile.go:60 *)
Definition XMR_testnetPublicAddress : addr_type := mkAddr (str "XMR") XMRAlphabet (str "keccak256") (str "") 64 [53] []. (* encoderProfile.go:61 *)
Definition XMR_testnetPublicSubAddress : addr_type := mkAddr (str "XMR") XMRAlphabet (str "keccak256") (str "") 64 [63] []. (* encoderProfile.go:62 *)
Definition XMR_testnetPublicIntegratedAddress : addr_type := mkAddr (str "XMR") XMRAlphabet (str "keccak256") (str "payID") 72 [54] []. (* encoderProfile.go:63 *)
Definition DOGE_multiSignAddressP2PKH : addr_type := mkAddr (str "base58") BTCAlphabet (str "doubleSHA256") (str "h160") 20 [22] []. (* encoderProfile.go:67 *)
Definition ONT_Address : addr_type := mkAddr (str "base58") OntAlphabet (str "doubleSHA256") (str "h160") 20 [23] []. (* encoderProfile.go:69 *)
Definition XRP_Address : addr_type := mkAddr (str "base58") XRPAlphabet (str "doubleSHA256") (str "h160") 20 [0] []. (* encoderProfile.go:71 *)
Definition BTM_mainnetAddressBech32V0 : addr_type := mkAddr (str "bech32") BTCBech32Alphabet (str "bm") (str "h160") 20 [0] []. (* encoderProfile.go:73 *)
Definition BTM_testnetAddressBech32V0 : addr_type := mkAddr (str "bech32") BTCBech32Alphabet (str "tm") (str "h160") 20 [0] []. (* encoderProfile.go:74 *)
Definition ZEC_mainnet_t_AddressP2PKH : addr_type := mkAddr (str "base58") ZECAlphabet (str "doubleSHA256") (str "h160") 20 [28; 184] []. (* encoderProfile.go:76 *)
Definition ZEC_mainnet_t_AddressP2SH : addr_type := mkAddr (str "base58") ZECAlphabet (str "doubleSHA256") (str "h160") 20 [28; 189] []. (* encoderProfile.go:77 *)
Definition ZEC_testnet_t_AddressP2PKH : addr_type := mkAddr (str "base58") ZECAlphabet (str "doubleSHA256") (str "h160") 20 [29; 37] []. (* encoderProfile.go:78 *)
Definition ZEC_testnet_t_AddressP2SH : addr_type := mkAddr (str "base58") ZECAlphabet (str "doubleSHA256") (str "h160") 20 [28; 186] []. (* encoderProfile.go:79 *)
Definition LTC_mainnetAddressP2PKH : addr_type := mkAddr (str "base58") LTCAlphabet (str "doubleSHA256") (str "h160") 20 [48] []. (* encoderProfile.go:82 *)
Definition LTC_mainnetAddressP2SH : addr_type := mkAddr (str "base58") LTCAlphabet (str "doubleSHA256") (str "h160") 20 [5] []. (* encoderProfile.go:83 *)
Definition LTC_mainnetAddressP2SH2 : addr_type := mkAddr (str "base58") LTCAlphabet (str "doubleSHA256") (str "h160") 20 [50] []. (* encoderProfile.go:84 *)
Definition LTC_mainnetAddressBech32V0 : addr_type := mkAddr (str "bech32") LTCBech32Alphabet (str "ltc") (str "h160") 20 [0] []. (* encoderProfile.go:85 *)
Definition LTC_mainnetPrivateWIF : addr_type := mkAddr (str "base58") LTCAlphabet (str "doubleSHA256") (str "") 32 [176] []. (* encoderProfile.go:86 *)
Definition LTC_mainnetPrivateWIFCompressed : addr_type := mkAddr (str "base58") LTCAlphabet (str "doubleSHA256") (str "") 32 [176] [1]. (* encoderProfile.go:87 *)
Definition LTC_mainnetPublicBIP32 : addr_type := mkAddr (str "base58") BTCAlphabet (str "doubleSHA256") (str "") 74 [4; 136; 178; 30] []. (* encoderProfile.go:88 *)
Definition LTC_mainnetPrivateBIP32 : addr_type := mkAddr (str "base58") BTCAlphabet (str "doubleSHA256") (str "") 74 [4; 136; 173; 228] []. (* encoderProfile.go:89 *)
Definition LTC_testnetAddressP2PKH : addr_type := mkAddr (str "base58") LTCAlphabet (str "doubleSHA256") (str "h160") 20 [111] []. (* encoderProfile.go:90 *)
Definition LTC_testnetAddressP2SH : addr_type := mkAddr (str "base58") LTCAlphabet (str "doubleSHA256") (str "h160") 20 [196] []. (* encoderProfile.go:91 *)
Definition LTC_testnetAddressP2SH2 : addr_type := mkAddr (str "base58") LTCAlphabet (str "doubleSHA256") (str "h160") 20 [58] []. (* encoderProfile.go:92 *)
Definition LTC_testnetAddressBech32V0 : addr_type := mkAddr (str "bech32") LTCBech32Alphabet (str "tltc") (str "h160") 20 [0] []. (* encoderProfile.go:93 *)
Definition LTC_testnetPrivateWIF : addr_type := mkAddr (str "base58") LTCAlphabet (str "doubleSHA256") (str "") 32 [239] []. (* encoderProfile.go:94 *)
Definition LTC_testnetPrivateWIFCompressed : addr_type := mkAddr (str "base58") LTCAlphabet (str "doubleSHA256") (str "") 32 [239] [1]. (* encoderProfile.go:95 *)
Definition LTC_testnetPublicBIP32 : addr_type := mkAddr (str "base58") BTCAlphabet (str "doubleSHA256") (str "") 74 [4; 53; 135; 207] []. (* encoderProfile.go:96 *)
Definition LTC_testnetPrivateBIP32 : addr_type := mkAddr (str "base58") BTCAlphabet (str "doubleSHA256") (str "") 74 [4; 53; 131; 148] []. (* encoderProfile.go:97 *)
Definition BCH_mainnetAddressLegacy : addr_type := mkAddr (str "base58") BCHLegacyAlphabet (str "doubleSHA256") (str "h160") 20 [0] []. (* encoderProfile.go:100 *)
Definition BCH_mainnetAddressCash : addr_type := mkAddr (str "base32PolyMod") BCHCashAlphabet (str "bitcoincash") (str "h160") 21 [] []. (* encoderProfile.go:101 *)
Definition XTZ_mainnetAddress_tz1 : addr_type := mkAddr (str "base58") XTZAlphabet (str "doubleSHA256") (str "blake2b160") 20 [6; 161; 159] []. (* encoderProfile.go:104 *)
Definition XTZ_mainnetAddress_tz2 : addr_type := mkAddr (str "base58") XTZAlphabet (str "doubleSHA256") (str "blake2b160") 20 [6; 161; 161] []. (* encoderProfile.go:105 *)
Definition XTZ_mainnetAddress_tz3 : addr_type := mkAddr (str "base58") XTZAlphabet (str "doubleSHA256") (str "blake2b160") 20 [6; 161; 164] []. (* encoderProfile.go:106 *)
Definition XTZ_mainnetPublic_edpk : addr_type := mkAddr (str "base58") XTZAlphabet (str "doubleSHA256") (str "") 32 [13; 15; 37; 217] []. (* encoderProfile.go:107 *)
Definition XTZ_mainnetPrivate_edsk : addr_type := mkAddr (str "base58") XTZAlphabet (str "doubleSHA256") (str "") 64 [13; 15; 58; 7] []. (* encoderProfile.go:108 *)
Definition XTZ_mainnetPrivate_edsk2 : addr_type := mkAddr (str "base58") XTZAlphabet (str "doubleSHA256") (str "") 32 [43; 246; 78; 7] []. (* encoderProfile.go:109 *)
Definition XTZ_mainnetPrivate_spsk : addr_type := mkAddr (str "base58") XTZAlphabet (str "doubleSHA256") (str "") 32 [17; 162; 224; 201] []. (* encoderProfile.go:110 *)
Definition XTZ_mainnetPrivate_p2sk : addr_type := mkAddr (str "base58") XTZAlphabet (str "doubleSHA256") (str "blake2b160") 32 [16; 81; 238; 189] []. (* encoderProfile.go:111 *)
Definition ETH_mainnetPublicAddress : addr_type := mkAddr (str "eip55") (str "") (str "") (str "keccak256") 32 [] []. (* encoderProfile.go:114 *)
Definition QTUM_mainnetAddressP2PKH : addr_type := mkAddr (str "base58") QTUMAlphabet (str "doubleSHA256") (str "h160") 20 [58] []. (* encoderProfile.go:117 *)
Definition QTUM_mainnetAddressP2SH : addr_type := mkAddr (str "base58") QTUMAlphabet (str "doubleSHA256") (str "h160") 20 [50] []. (* encoderProfile.go:118 *)
Definition QTUM_mainnetPrivateWIF : addr_type := mkAddr (str "base58") QTUMAlphabet (str "doubleSHA256") (str "") 32 [128] []. (* encoderProfile.go:119 *)
Definition QTUM_mainnetPrivateWIFCompressed : addr_type := mkAddr (str "base58") QTUMAlphabet (str "doubleSHA256") (str "") 32 [128] [1]. (* encoderProfile.go:120 *)
Definition QTUM_mainnetPublicBIP32 : addr_type := mkAddr (str "base58") QTUMAlphabet (str "doubleSHA256") (str "") 74 [4; 136; 178; 30] []. (* encoderProfile.go:121 *)
Definition QTUM_mainnetPrivateBIP32 : addr_type := mkAddr (str "base58") QTUMAlphabet (str "doubleSHA256") (str "") 74 [4; 136; 173; 228] []. (* encoderProfile.go:122 *)
Definition QTUM_testnetAddressP2PKH : addr_type := mkAddr (str "base58") QTUMAlphabet (str "doubleSHA256") (str "h160") 20 [120] []. (* encoderProfile.go:123 *)
Definition QTUM_testnetAddressP2SH : addr_type := mkAddr (str "base58") QTUMAlphabet (str "doubleSHA256") (str "h160") 20 [110] []. (* encoderProfile.go:124 *)
Definition QTUM_testnetPrivateWIF : addr_type := mkAddr (str "base58") QTUMAlphabet (str "doubleSHA256") (str "") 32 [239] []. (* encoderProfile.go:125 *)
Definition QTUM_testnetPrivateWIFCompressed : addr_type := mkAddr (str "base58") QTUMAlphabet (str "doubleSHA256") (str "") 32 [239] [1]. (* encoderProfile.go:126 *)
Definition QTUM_testnetPublicBIP32 : addr_type := mkAddr (str "base58") QTUMAlphabet (str "doubleSHA256") (str "") 74 [4; 53; 135; 207] []. (* encoderProfile.go:127 *)
Definition QTUM_testnetPrivateBIP32 : addr_type := mkAddr (str "base58") QTUMAlphabet (str "doubleSHA256") (str "") 74 [4; 53; 131; 148] []. (* encoderProfile.go:128 *)
Definition DCRD_mainnetAddressP2PKH : addr_type := mkAddr (str "base58") DCRDAlphabet (str "doubleBlake256") (str "ripemd160") 20 [7; 63] []. (* encoderProfile.go:131 *)
Definition DCRD_mainnetAddressP2PK : addr_type := mkAddr (str "base58") DCRDAlphabet (str "doubleBlake256") (str "ripemd160") 20 [19; 134] []. (* encoderProfile.go:132 *)
Definition DCRD_mainnetAddressPKHEdwards : addr_type := mkAddr (str "base58") DCRDAlphabet (str "doubleBlake256") (str "ripemd160") 20 [7; 31] []. (* encoderProfile.go:133 *)
Definition DCRD_mainnetAddressPKHSchnorr : addr_type := mkAddr (str "base58") DCRDAlphabet (str "doubleBlake256") (str "ripemd160") 20 [7; 1] []. (* encoderProfile.go:134 *)
Definition DCRD_mainnetAddressP2SH : addr_type := mkAddr (str "base58") DCRDAlphabet (str "doubleBlake256") (str "ripemd160") 20 [7; 26] []. (* encoderProfile.go:135 *)
Definition DCRD_mainnetAddressPrivate : addr_type := mkAddr (str "base58") DCRDAlphabet (str "doubleBlake256") (str "ripemd160") 20 [34; 222] []. (* encoderProfile.go:136 *)
Definition DCRD_testnetAddressP2PKH : addr_type := mkAddr (str "base58") DCRDAlphabet (str "doubleBlake256") (str "ripemd160") 20 [15; 33] []. (* encoderProfile.go:138 *)
Definition DCRD_testnetAddressP2PK : addr_type := mkAddr (str "base58") DCRDAlphabet (str "doubleBlake256") (str "ripemd160") 20 [40; 247] []. (* encoderProfile.go:139 *)
Definition DCRD_testnetAddressPKHEdwards : addr_type := mkAddr (str "base58") DCRDAlphabet (str "doubleBlake256") (str "ripemd160") 20 [15; 1] []. (* encoderProfile.go:140 *)
Definition DCRD_testnetAddressP2PKHSchnorr : addr_type := mkAddr (str "base58") DCRDAlphabet (str "doubleBlake256") (str "ripemd160") 20 [14; 227] []. (* encoderProfile.go:141 *)
Definition DCRD_testnetAddressP2SH : addr_type := mkAddr (str "base58") DCRDAlphabet (str "doubleBlake256") (str "ripemd160") 20 [14; 252] []. (* encoderProfile.go:142 *)
Definition DCRD_testnetAddressPrivate : addr_type := mkAddr (str "base58") DCRDAlphabet (str "doubleBlake256") (str "ripemd160") 20 [35; 14] []. (* encoderProfile.go:143 *)
Definition DCRD_simnetAddressP2PKH : addr_type := mkAddr (str "base58") DCRDAlphabet (str "doubleBlake256") (str "ripemd160") 20 [14; 145] []. (* encoderProfile.go:145 *)
Definition DCRD_simnetAddressP2PK : addr_type := mkAddr (str "base58") DCRDAlphabet (str "doubleBlake256") (str "ripemd160") 20 [39; 111] []. (* encoderProfile.go:146 *)
Definition DCRD_simnetAddressPKHEdwards : addr_type := mkAddr (str "base58") DCRDAlphabet (str "doubleBlake256") (str "ripemd160") 20 [14; 113] []. (* encoderProfile.go:147 *)
Definition DCRD_simnetAddressPKHSchnorr : addr_type := mkAddr (str "base58") DCRDAlphabet (str "doubleBlake256") (str "ripemd160") 20 [14; 83] []. (* encoderProfile.go:148 *)
Definition DCRD_simnetAddressP2SH : addr_type := mkAddr (str "base58") DCRDAlphabet (str "doubleBlake256") (str "ripemd160") 20 [14; 108] []. (* encoderProfile.go:149 *)
Definition DCRD_simnetAddressPrivate : addr_type := mkAddr (str "base58") DCRDAlphabet (str "doubleBlake256") (str "ripemd160") 20 [35; 7] []. (* encoderProfile.go:150 *)
Definition NAS_AccountAddress : addr_type := mkAddr (str "base58") NASAlphabet (str "sha3_256") (str "sha3_256_ripemd160") 20 [25; 87] []. (* encoderProfile.go:153 *)
Definition NAS_SmartContractAddress : addr_type := mkAddr (str "base58") NASAlphabet (str "sha3_256") (str "sha3_256_ripemd160") 20 [25; 88] []. (* encoderProfile.go:154 *)
Definition TRON_mainnetAddress : addr_type := mkAddr (str "base58") TRONAlphabet (str "doubleSHA256") (str "keccak256_last_twenty") 20 [65] []. (* encoderProfile.go:157 *)
Definition TRON_testnetAddress : addr_type := mkAddr (str "base58") TRONAlphabet (str "doubleSHA256") (str "keccak256_last_twenty") 20 [160] []. (* encoderProfile.go:158 *)
Definition ICX_walletAddress : addr_type := mkAddr (str "ICX") (str "") (str "hx") (str "sha3_256_last_twenty") 20 [] []. (* encoderProfile.go:160 *)
Definition VSYS_mainnetAddress : addr_type := mkAddr (str "base58") VSYSAlphabet (str "blake2b_and_keccak256_first_twenty") (str "blake2b_and_keccak256_first_twenty") 20 [5; 77] []. (* encoderProfile.go:163 *)
Definition VSYS_testnetAddress : addr_type := mkAddr (str "base58") VSYSAlphabet (str "blake2b_and_keccak256_first_twenty") (str "blake2b_and_keccak256_first_twenty") 20 [5; 84] []. (* encoderProfile.go:164 *)
Definition EOS_mainnetPublic : addr_type := mkAddr (str "eos") BTCAlphabet (str "ripemd160") (str "") 33 (str "EOS") []. (* encoderProfile.go:167 *)
Definition EOS_mainnetPrivateWIF : addr_type := mkAddr (str "base58") BTCAlphabet (str "doubleSHA256") (str "") 32 [128] []. (* encoderProfile.go:168 *)
Definition EOS_mainnetPrivateWIFCompressed : addr_type := mkAddr (str "base58") BTCAlphabet (str "doubleSHA256") (str "") 32 [128] [1]. (* encoderProfile.go:169 *)
Definition AE_mainnetAddress : addr_type := mkAddr (str "aeternity") BTCAlphabet (str "doubleSHA256") (str "") 32 (str "ak_") []. (* encoderProfile.go:172 *)
Definition ATOM_mainnetAddress : addr_type := mkAddr (str "bech32") ATOMBech32Alphabet (str "cosmos") (str "h160") 20 [] []. (* encoderProfile.go:175 *)
Definition ATOM_testnetAddress : addr_type := mkAddr (str "bech32") ATOMBech32Alphabet (str "cosmos") (str "h160") 20 [] []. (* encoderProfile.go:176 *)
Definition ELA_Address : addr_type := mkAddr (str "base58") BTCAlphabet (str "doubleSHA256") (str "h160") 20 [33] []. (* encoderProfile.go:179 *)
Definition WICC_mainnetAddressP2PKH : addr_type := mkAddr (str "base58") BTCAlphabet (str "doubleSHA256") (str "h160") 20 [73] []. (* encoderProfile.go:182 *)
Definition WICC_testnetAddressP2PKH : addr_type := mkAddr (str "base58") BTCAlphabet (str "doubleSHA256") (str "h160") 20 [135] []. (* encoderProfile.go:183 *)
Definition TV_mainnetAddress : addr_type := mkAddr (str "base58") VSYSAlphabet (str "blake2b_and_keccak256_first_twenty") (str "blake2b_and_keccak256_first_twenty") 20 [29; 59] []. (* encoderProfile.go:186 *)
Definition TV_testnetAddress : addr_type := mkAddr (str "base58") VSYSAlphabet (str "blake2b_and_keccak256_first_twenty") (str "blake2b_and_keccak256_first_twenty") 20 [29; 84] []. (* encoderProfile.go:187 *)
Definition HC_mainnetPublicAddress : addr_type := mkAddr (str "base58") HCAlphabet (str "doubleBlake256") (str "h160") 20 [9; 127] []. (* encoderProfile.go:190 *)
Definition HC_mainnetAddressP2PK : addr_type := mkAddr (str "base58") HCAlphabet (str "doubleBlake256") (str "h160") 20 [25; 164] []. (* encoderProfile.go:191 *)
Definition HC_mainnetAddressP2PKBliss : addr_type := mkAddr (str "base58") HCAlphabet (str "doubleBlake256") (str "h160") 20 [7; 195] []. (* encoderProfile.go:192 *)
Definition HC_mainnetAddressP2PKH : addr_type := mkAddr (str "base58") HCAlphabet (str "doubleBlake256") (str "h160") 20 [9; 127] []. (* encoderProfile.go:193 *)
Definition HC_mainnetAddressPKHEdwards : addr_type := mkAddr (str "base58") HCAlphabet (str "doubleBlake256") (str "h160") 20 [9; 96] []. (* encoderProfile.go:194 *)
Definition HC_mainnetAddressPKHSchnorr : addr_type := mkAddr (str "base58") HCAlphabet (str "doubleBlake256") (str "h160") 20 [9; 65] []. (* encoderProfile.go:195 *)
Definition HC_mainnetAddressPKHBliss : addr_type := mkAddr (str "base58") HCAlphabet (str "doubleBlake256") (str "h160") 20 [9; 88] []. (* encoderProfile.go:196 *)
Definition HC_mainnetAddressP2SH : addr_type := mkAddr (str "base58") HCAlphabet (str "doubleBlake256") (str "h160") 20 [9; 90] []. (* encoderProfile.go:197 *)
Definition HC_mainnetAddressPrivate : addr_type := mkAddr (str "base58") HCAlphabet (str "doubleBlake256") (str "h160") 20 [25; 171] []. (* encoderProfile.go:198 *)
Definition HC_testnetAddressP2PK : addr_type := mkAddr (str "base58") HCAlphabet (str "doubleBlake256") (str "h160") 20 [40; 247] []. (* encoderProfile.go:200 *)
Definition HC_testnetAddressP2PKBliss : addr_type := mkAddr (str "base58") HCAlphabet (str "doubleBlake256") (str "h160") 20 [12; 102] []. (* encoderProfile.go:201 *)
Definition HC_testnetAddressP2PKH : addr_type := mkAddr (str "base58") HCAlphabet (str "doubleBlake256") (str "h160") 20 [15; 33] []. (* encoderProfile.go:202 *)
Definition HC_testnetAddressPKHEdwards : addr_type := mkAddr (str "base58") HCAlphabet (str "doubleBlake256") (str "h160") 20 [15; 1] []. (* encoderProfile.go:203 *)
Definition HC_testnetAddressP2PKHSchnorr : addr_type := mkAddr (str "base58") HCAlphabet (str "doubleBlake256") (str "h160") 20 [14; 227] []. (* encoderProfile.go:204 *)
Definition HC_testnetAddressPKHBliss : addr_type := mkAddr (str "base58") HCAlphabet (str "doubleBlake256") (str "h160") 20 [14; 249] []. (* encoderProfile.go:205 *)
Definition HC_testnetAddressP2SH : addr_type := mkAddr (str "base58") HCAlphabet (str "doubleBlake256") (str "h160") 20 [14; 252] []. (* encoderProfile.go:206 *)
Definition HC_testnetAddressPrivate : addr_type := mkAddr (str "base58") HCAlphabet (str "doubleBlake256") (str "h160") 20 [35; 14] []. (* encoderProfile.go:207 *)
Definition HC_simnetAddressP2PK : addr_type := mkAddr (str "base58") HCAlphabet (str "doubleBlake256") (str "h160") 20 [39; 111] []. (* encoderProfile.go:209 *)
Definition HC_simnetAddressP2PKBliss : addr_type := mkAddr (str "base58") HCAlphabet (str "doubleBlake256") (str "h160") 20 [11; 239] []. (* encoderProfile.go:210 *)
Definition HC_simnetAddressP2PKH : addr_type := mkAddr (str "base58") HCAlphabet (str "doubleBlake256") (str "h160") 20 [14; 145] []. (* encoderProfile.go:211 *)
Definition HC_simnetAddressPKHEdwards : addr_type := mkAddr (str "base58") HCAlphabet (str "doubleBlake256") (str "h160") 20 [14; 113] []. (* encoderProfile.go:212 *)
Definition HC_simnetAddressPKHSchnorr : addr_type := mkAddr (str "base58") HCAlphabet (str "doubleBlake256") (str "h160") 20 [14; 83] []. (* encoderProfile.go:213 *)
Definition HC_simnetAddressPKHBliss : addr_type := mkAddr (str "base58") HCAlphabet (str "doubleBlake256") (str "h160") 20 [14; 105] []. (* encoderProfile.go:214 *)
Definition HC_simnetAddressP2SH : addr_type := mkAddr (str "base58") HCAlphabet (str "doubleBlake256") (str "h160") 20 [14; 108] []. (* encoderProfile.go:215 *)
Definition HC_simnetAddressPrivate : addr_type := mkAddr (str "base58") HCAlphabet (str "doubleBlake256") (str "h160") 20 [35; 7] []. (* encoderProfile.go:216 *)
Definition BNB_mainnetAddress : addr_type := mkAddr (str "bech32") BTCBech32Alphabet (str "bnb") (str "h160") 20 [] []. (* encoderProfile.go:219 *)
Definition BSV_mainnetAddressP2PKH : addr_type := mkAddr (str "base58") BTCAlphabet (str "doubleSHA256") (str "h160") 20 [0] []. (* encoderProfile.go:221 *)
Definition BSV_mainnetAddressP2SH : addr_type := mkAddr (str "base58") BTCAlphabet (str "doubleSHA256") (str "h160") 20 [5] []. (* encoderProfile.go:222 *)
Definition EVA_mainnetAddress : addr_type := mkAddr (str "bech32") ATOMBech32Alphabet (str "eva") (str "h160") 20 [] []. (* encoderProfile.go:224 *)
Definition EVA_testnetAddress : addr_type := mkAddr (str "bech32") ATOMBech32Alphabet (str "eva") (str "h160") 20 [] []. (* encoderProfile.go:225 *)
Definition XCH_mainnetAddress : addr_type := mkAddr (str "bech32m") XCHBech32Alphabet (str "xch") (str "") 32 [] []. (* encoderProfile.go:227 *)

(** all the profiles whose encode type is "base58" *)
Definition base58_profiles : list addr_type :=
  [BTC_mainnetAddressP2PKH; BTC_mainnetAddressP2SH; BTC_mainnetPrivateWIF; BTC_mainnetPrivateWIFCompressed;
   BTC_mainnetPublicBIP32; BTC_mainnetPrivateBIP32; BTC_testnetAddressP2PKH; BTC_testnetAddressP2SH;
   BTC_testnetPrivateWIF; BTC_testnetPrivateWIFCompressed; BTC_testnetPublicBIP32; BTC_testnetPrivateBIP32;
   DOGE_multiSignAddressP2PKH; ONT_Address; XRP_Address; ZEC_mainnet_t_AddressP2PKH; ZEC_mainnet_t_AddressP2SH;
   ZEC_testnet_t_AddressP2PKH; ZEC_testnet_t_AddressP2SH; LTC_mainnetAddressP2PKH; LTC_mainnetAddressP2SH;
   LTC_mainnetAddressP2SH2; LTC_mainnetPrivateWIF; LTC_mainnetPrivateWIFCompressed; LTC_mainnetPublicBIP32;
   LTC_mainnetPrivateBIP32; LTC_testnetAddressP2PKH; LTC_testnetAddressP2SH; LTC_testnetAddressP2SH2;
   LTC_testnetPrivateWIF; LTC_testnetPrivateWIFCompressed; LTC_testnetPublicBIP32; LTC_testnetPrivateBIP32;
   BCH_mainnetAddressLegacy; XTZ_mainnetAddress_tz1; XTZ_mainnetAddress_tz2; XTZ_mainnetAddress_tz3;
   XTZ_mainnetPublic_edpk; XTZ_mainnetPrivate_edsk; XTZ_mainnetPrivate_edsk2; XTZ_mainnetPrivate_spsk;
   XTZ_mainnetPrivate_p2sk; QTUM_mainnetAddressP2PKH; QTUM_mainnetAddressP2SH; QTUM_mainnetPrivateWIF;
   QTUM_mainnetPrivateWIFCompressed; QTUM_mainnetPublicBIP32; QTUM_mainnetPrivateBIP32; QTUM_testnetAddressP2PKH;
   QTUM_testnetAddressP2SH; QTUM_testnetPrivateWIF; QTUM_testnetPrivateWIFCompressed; QTUM_testnetPublicBIP32;
   QTUM_testnetPrivateBIP32; DCRD_mainnetAddressP2PKH; DCRD_mainnetAddressP2PK; DCRD_mainnetAddressPKHEdwards;
   DCRD_mainnetAddressPKHSchnorr; DCRD_mainnetAddressP2SH; DCRD_mainnetAddressPrivate; DCRD_testnetAddressP2PKH;
   DCRD_testnetAddressP2PK; DCRD_testnetAddressPKHEdwards; DCRD_testnetAddressP2PKHSchnorr;
   DCRD_testnetAddressP2SH; DCRD_testnetAddressPrivate; DCRD_simnetAddressP2PKH; DCRD_simnetAddressP2PK;
   DCRD_simnetAddressPKHEdwards; DCRD_simnetAddressPKHSchnorr; DCRD_simnetAddressP2SH; DCRD_simnetAddressPrivate;
   NAS_AccountAddress; NAS_SmartContractAddress; TRON_mainnetAddress; TRON_testnetAddress; VSYS_mainnetAddress;
   VSYS_testnetAddress; EOS_mainnetPrivateWIF; EOS_mainnetPrivateWIFCompressed; ELA_Address;
   WICC_mainnetAddressP2PKH; WICC_testnetAddressP2PKH; TV_mainnetAddress; TV_testnetAddress;
   HC_mainnetPublicAddress; HC_mainnetAddressP2PK; HC_mainnetAddressP2PKBliss; HC_mainnetAddressP2PKH;
   HC_mainnetAddressPKHEdwards; HC_mainnetAddressPKHSchnorr; HC_mainnetAddressPKHBliss; HC_mainnetAddressP2SH;
   HC_mainnetAddressPrivate; HC_testnetAddressP2PK; HC_testnetAddressP2PKBliss; HC_testnetAddressP2PKH;
   HC_testnetAddressPKHEdwards; HC_testnetAddressP2PKHSchnorr; HC_testnetAddressPKHBliss; HC_testnetAddressP2SH;
   HC_testnetAddressPrivate; HC_simnetAddressP2PK; HC_simnetAddressP2PKBliss; HC_simnetAddressP2PKH;
   HC_simnetAddressPKHEdwards; HC_simnetAddressPKHSchnorr; HC_simnetAddressPKHBliss; HC_simnetAddressP2SH;
   HC_simnetAddressPrivate; BSV_mainnetAddressP2PKH; BSV_mainnetAddressP2SH].
(** all the profiles whose encode type is "bech32" *)
Definition bech32_profiles : list addr_type :=
  [BTC_mainnetAddressBech32V0; BTC_testnetAddressBech32V0; BTM_mainnetAddressBech32V0;
   BTM_testnetAddressBech32V0; LTC_mainnetAddressBech32V0; LTC_testnetAddressBech32V0; ATOM_mainnetAddress;
   ATOM_testnetAddress; BNB_mainnetAddress; EVA_mainnetAddress; EVA_testnetAddress].
(** all the profiles whose encode type is "XMR" *)
Definition xmr_profiles : list addr_type :=
  [XMR_mainnetPublicAddress; XMR_mainnetPublicSubAddress; XMR_mainnetPublicIntegratedAddress;
   XMR_testnetPublicAddress; XMR_testnetPublicSubAddress; XMR_testnetPublicIntegratedAddress].
