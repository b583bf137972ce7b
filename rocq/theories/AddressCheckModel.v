(** Model of /repo/addressEncoder/addressCheck.go AddressCheck. *)
From Coq Require Import String ZArith List Bool.
From Verif Require Import Go AddressModel AddressProfiles.
Import ListNotations.
Open Scope Z_scope.

(** The dispatch of lines 21-448 as data: for each symbol the tests on the leading characters, in
    source order, with the profile used. A test with "||" is listed as two tests with the same
    profile; the ETH case has no test. *)
Definition check_table : list (list Z * list (list Z * addr_type)) :=
  [
   (str "BTC", (* addressCheck.go:22 *)
    [(str "1", BTC_mainnetAddressP2PKH); (str "3", BTC_mainnetAddressP2SH); (str "bc",
     BTC_mainnetAddressBech32V0); (str "m", BTC_testnetAddressP2PKH); (str "n", BTC_testnetAddressP2PKH); (str
     "2", BTC_testnetAddressP2SH); (str "tb", BTC_testnetAddressBech32V0)]);
   (str "ZEC", (* addressCheck.go:74 *)
    [(str "t1", ZEC_mainnet_t_AddressP2PKH); (str "t3", ZEC_mainnet_t_AddressP2SH); (str "tm",
     ZEC_testnet_t_AddressP2PKH); (str "t2", ZEC_testnet_t_AddressP2SH)]);
   (str "LTC", (* addressCheck.go:109 *)
    [(str "L", LTC_mainnetAddressP2PKH); (str "3", LTC_mainnetAddressP2SH); (str "M",
     LTC_mainnetAddressP2SH2); (str "ltc", LTC_mainnetAddressBech32V0); (str "m", LTC_testnetAddressP2PKH);
     (str "n", LTC_testnetAddressP2PKH); (str "2", LTC_testnetAddressP2SH); (str "tltc",
     LTC_testnetAddressBech32V0)]);
   (str "BCH", (* addressCheck.go:167 *)
    [(str "1", BCH_mainnetAddressLegacy); (str "bitcoincash:", BCH_mainnetAddressCash)]);
   (str "XTZ", (* addressCheck.go:188 *)
    [(str "tz1", XTZ_mainnetAddress_tz1); (str "tz2", XTZ_mainnetAddress_tz2); (str "tz3",
     XTZ_mainnetAddress_tz3)]);
   (str "HC", (* addressCheck.go:214 *)
    [(str "Hs", HC_mainnetPublicAddress)]);
   (str "ETH", (* addressCheck.go:224 *)
    [(str "", ETH_mainnetPublicAddress)]);
   (str "QTUM", (* addressCheck.go:232 *)
    [(str "Q", QTUM_mainnetAddressP2PKH); (str "M", QTUM_mainnetAddressP2SH); (str "q",
     QTUM_testnetAddressP2PKH); (str "m", QTUM_testnetAddressP2SH)]);
   (str "DCRD", (* addressCheck.go:266 *)
    [(str "Ds", DCRD_mainnetAddressP2PKH); (str "bg", DCRD_mainnetAddressP2PK); (str "De",
     DCRD_mainnetAddressPKHEdwards); (str "DS", DCRD_mainnetAddressPKHSchnorr); (str "Dc",
     DCRD_mainnetAddressP2SH); (str "24", DCRD_mainnetAddressPrivate); (str "Ts", DCRD_testnetAddressP2PKH);
     (str "2F", DCRD_testnetAddressP2PK); (str "Te", DCRD_testnetAddressPKHEdwards); (str "TS",
     DCRD_testnetAddressP2PKHSchnorr); (str "Tc", DCRD_testnetAddressP2SH); (str "25",
     DCRD_testnetAddressPrivate); (str "Ss", DCRD_simnetAddressP2PKH); (str "2D", DCRD_simnetAddressP2PK);
     (str "Se", DCRD_simnetAddressPKHEdwards); (str "SS", DCRD_simnetAddressPKHSchnorr); (str "Sc",
     DCRD_simnetAddressP2SH)]);
   (str "NAS", (* addressCheck.go:404 *)
    [(str "n1", NAS_AccountAddress); (str "n2", NAS_SmartContractAddress)]);
   (str "TRX", (* addressCheck.go:422 *)
    [(str "T", TRON_mainnetAddress)]);
   (str "ICX", (* addressCheck.go:431 *)
    [(str "hx", ICX_walletAddress)]);
   (str "VSYS", (* addressCheck.go:440 *)
    [(str "A", VSYS_mainnetAddress)])
].

(** addr[0] == 'a' && addr[1] == 'b' && ...: reads the characters one by one and stops at the first difference. *)
Fixpoint lead_test (pat addr : list Z) (i : Z) : res bool :=
  match pat with
  | [] => Ok true
  | c :: r => x <- idx addr i ;; if x =? c then lead_test r addr (i + 1) else Ok false
  end.
Section WithHashes.
Variable H : alg -> bytes -> bytes.
(** One switch case: the first test that holds decides. The boolean is the first result of
    AddressCheck; the error is non-nil exactly when it is false. *)
Fixpoint check_cases (cs : list (list Z * addr_type)) (addr : list Z) : res bool :=
  match cs with
  | [] => Ok false                                       (* line 454: ErrorSymbolType *)
  | (pat, T) :: r =>
      t <- lead_test pat addr 0 ;;
      if t then match address_decode H addr T with Ok _ => Ok true | Err => Ok false | Panic => Panic end
      else check_cases r addr
  end.
Fixpoint lookup_symbol {A} (tbl : list (list Z * A)) (symbol : list Z) : option A :=
  match tbl with
  | [] => None
  | (s, v) :: r => if beq s symbol then Some v else lookup_symbol r symbol
  end.
(** addressCheck.go:19-455 AddressCheck. *)
Definition address_check (addr symbol : list Z) : res bool :=
  match lookup_symbol check_table symbol with
  | Some cs => check_cases cs addr
  | None => Ok true                                      (* line 452 *)
  end.
End WithHashes.
