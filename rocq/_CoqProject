-Q theories Verif
theories/AddressCheckModel.v
theories/AddressCheckProps.v
theories/AddressCheckSpec.v
theories/AddressDataProps.v
theories/AddressKeyProofs.v
theories/AddressModel.v
theories/AddressProfiles.v
theories/AddressProofs.v
theories/AddressProps.v
theories/AddressSpec.v
theories/Base58AlphaProps.v
theories/Base58CheckModel.v
theories/Base58CheckProofs.v
theories/Base58CheckProps.v
theories/Base58CheckSpec.v
theories/Base58Model.v
theories/Base58Proofs.v
theories/Base58Props.v
theories/Base58Spec.v
theories/Base64DecModel.v
theories/Base64DecProps.v
theories/Base64Props.v
theories/Bech32DecProps.v
theories/Bech32DecSpec.v
theories/Bech32Model.v
theories/Bech32Proofs.v
theories/Bech32Props.v
theories/Bech32Spec.v
theories/Bech32Text.v
theories/Bech32mModel.v
theories/Bech32mProofs.v
theories/Bech32mProps.v
theories/BigbangModel.v
theories/BigbangProps.v
theories/BinanceModel.v
theories/BinanceProps.v
theories/BlakeModel.v
theories/BlakeProofs.v
theories/BlakeProps.v
theories/BlakeSpec.v
theories/BtcDecodeProps.v
theories/BtcManyProps.v
theories/BtcModel.v
theories/BtcMultiProps.v
theories/BtcNetProps.v
theories/BtcProofs.v
theories/BtcSigProps.v
theories/BtcSpec.v
theories/BtcTxProofs.v
theories/BtcTxProps.v
theories/BtcVerModel.v
theories/BtcVerProps.v
theories/BytomDecodeProps.v
theories/BytomModel.v
theories/BytomPanicProps.v
theories/BytomProps.v
theories/BytomSigProps.v
theories/BytomSignProps.v
theories/CaseModel.v
theories/CaseProps.v
theories/CaseSignerProps.v
theories/CashAddrModel.v
theories/CashAddrProofs.v
theories/CashAddrProps.v
theories/CodecModel.v
theories/CodecProps.v
theories/Codes.v
theories/ConvertBitsProofs.v
theories/CosmosModel.v
theories/CosmosProps.v
theories/CrcModel.v
theories/CrcProps.v
theories/CreatePanicProps.v
theories/Digits58.v
theories/ElaModel.v
theories/ElaProps.v
theories/EosModel.v
theories/EosProps.v
theories/FamCheckProps.v
theories/FamModel.v
theories/FamPanicProps.v
theories/FamProofs.v
theories/FamSharedCheckProps.v
theories/FamSigProofs.v
theories/FamSigProps.v
theories/FamTxProps.v
theories/FiiiJsonModel.v
theories/FiiiJsonProps.v
theories/FiiiModel.v
theories/FiiiProps.v
theories/FiiiReadProps.v
theories/FilenetJsonModel.v
theories/FilenetJsonProps.v
theories/FilenetModel.v
theories/FilenetProps.v
theories/ForkHashPanicProps.v
theories/Go.v
theories/GoFacts.v
theories/GoFacts2.v
theories/GoJson.v
theories/GoUnjson.v
theories/GoUnjsonFacts.v
theories/HyperModel.v
theories/HyperProps.v
theories/HyperTextProps.v
theories/Json.v
theories/JsonGrammar.v
theories/JsonGrammarProps.v
theories/JsonReadProps.v
theories/LikeAutoProps.v
theories/LikeCheckPanicProps.v
theories/LikeInsProps.v
theories/LikeModel.v
theories/LikeMultiProps.v
theories/LikePanicProps.v
theories/LikeProofs.v
theories/LikeProps.v
theories/LikeSigProofs.v
theories/LikeSigProps.v
theories/LikeSignPanicProps.v
theories/LikeVerProps.v
theories/LikeWitModel.v
theories/LikeWitProps.v
theories/LiteModel.v
theories/LitePanicProps.v
theories/LiteProps.v
theories/MateModel.v
theories/MateProps.v
theories/MoacModel.v
theories/MoacProps.v
theories/MoacTextProps.v
theories/OmniModel.v
theories/OmniProps.v
theories/OntDecodeProps.v
theories/OntModel.v
theories/OntProps.v
theories/OntSpec.v
theories/OntTextProps.v
theories/OwkDeriveProofs.v
theories/OwkDeriveProps.v
theories/OwkModel.v
theories/OwkPathProps.v
theories/OwkRootProps.v
theories/OwkSpec.v
theories/OwkText.v
theories/OwkTextProps.v
theories/OwkToy.v
theories/PadLoop.v
theories/PolkadotJsonModel.v
theories/PolkadotJsonProps.v
theories/PolkadotModel.v
theories/PolkadotProps.v
theories/PolymodFree.v
theories/PolymodProofs.v
theories/Rd.v
theories/Reader.v
theories/RippleModel.v
theories/RippleProps.v
theories/RippleTextProps.v
theories/SigAnyProps.v
theories/SigDerProps.v
theories/SigModel.v
theories/SigNormProps.v
theories/SigSizeProps.v
theories/SignerModel.v
theories/SignerNonceProps.v
theories/SignerProps.v
theories/SignerRegProps.v
theories/TokenPanicProps.v
theories/Toy.v
theories/TxidModel.v
theories/TxidProps.v
theories/Uvarint.v
theories/VsysJsonModel.v
theories/VsysJsonProps.v
theories/VsysModel.v
theories/VsysProps.v
theories/WaykiModel.v
theories/WaykiProps.v
theories/WaykiSizeProps.v
theories/WaykiTextProps.v
theories/XmrProofs.v
theories/XmrSpec.v
