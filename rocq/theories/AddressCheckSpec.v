(** The address profiles of each symbol AddressCheck knows, stated without the leading characters the code tests. *)
From Coq Require Import String ZArith List.
From Verif Require Import Go AddressModel AddressProfiles.
Import ListNotations.
Open Scope Z_scope.
Definition coin_profiles : list (list Z * list addr_type) :=
  [
   (str "BTC",
    [BTC_mainnetAddressP2PKH;
     BTC_mainnetAddressP2SH;
     BTC_mainnetAddressBech32V0;
     BTC_testnetAddressP2PKH;
     BTC_testnetAddressP2SH;
     BTC_testnetAddressBech32V0]);
   (str "ZEC",
    [ZEC_mainnet_t_AddressP2PKH;
     ZEC_mainnet_t_AddressP2SH;
     ZEC_testnet_t_AddressP2PKH;
     ZEC_testnet_t_AddressP2SH]);
   (str "LTC",
    [LTC_mainnetAddressP2PKH;
     LTC_mainnetAddressP2SH;
     LTC_mainnetAddressP2SH2;
     LTC_mainnetAddressBech32V0;
     LTC_testnetAddressP2PKH;
     LTC_testnetAddressP2SH;
     LTC_testnetAddressBech32V0]);
   (str "BCH",
    [BCH_mainnetAddressLegacy;
     BCH_mainnetAddressCash]);
   (str "XTZ",
    [XTZ_mainnetAddress_tz1;
     XTZ_mainnetAddress_tz2;
     XTZ_mainnetAddress_tz3]);
   (str "HC",
    [HC_mainnetPublicAddress]);
   (str "ETH",
    [ETH_mainnetPublicAddress]);
   (str "QTUM",
    [QTUM_mainnetAddressP2PKH;
     QTUM_mainnetAddressP2SH;
     QTUM_testnetAddressP2PKH;
     QTUM_testnetAddressP2SH]);
   (str "DCRD",
    [DCRD_mainnetAddressP2PKH;
     DCRD_mainnetAddressP2PK;
     DCRD_mainnetAddressPKHEdwards;
     DCRD_mainnetAddressPKHSchnorr;
     DCRD_mainnetAddressP2SH;
     DCRD_mainnetAddressPrivate;
     DCRD_testnetAddressP2PKH;
     DCRD_testnetAddressP2PK;
     DCRD_testnetAddressPKHEdwards;
     DCRD_testnetAddressP2PKHSchnorr;
     DCRD_testnetAddressP2SH;
     DCRD_testnetAddressPrivate;
     DCRD_simnetAddressP2PKH;
     DCRD_simnetAddressP2PK;
     DCRD_simnetAddressPKHEdwards;
     DCRD_simnetAddressPKHSchnorr;
     DCRD_simnetAddressP2SH]);
   (str "NAS",
    [NAS_AccountAddress;
     NAS_SmartContractAddress]);
   (str "TRX",
    [TRON_mainnetAddress]);
   (str "ICX",
    [ICX_walletAddress]);
   (str "VSYS",
    [VSYS_mainnetAddress])
  ].
