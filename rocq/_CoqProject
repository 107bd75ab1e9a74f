-Q theories Verif
theories/Base.v
theories/MCipher.v
theories/SCipher.v
theories/PCipher.v
theories/Toy.v
theories/TCipher.v
theories/MHash.v
theories/SHash.v
theories/PHash.v
theories/MSha2.v
theories/SSha2.v
theories/PSha2.v
theories/PSha2b.v
theories/MBlake2.v
theories/SBlake2.v
theories/PBlake2.v
theories/PBlake2b.v
theories/PHash2.v
theories/SHashLib.v
theories/THash.v
theories/MSymm.v
theories/SSymm.v
theories/PSymm.v
theories/ToyHash.v
theories/TSymm.v
theories/Str.v
theories/MUtil.v
theories/SUtil.v
theories/TUtil.v
theories/MNames.v
theories/SNames.v
theories/PNames.v
theories/TNames.v
theories/MPatterns.v
theories/SPatterns.v
theories/TPatterns.v
theories/MDh.v
theories/SDh.v
theories/PDh.v
theories/ToyDh.v
theories/TDh.v
theories/MHandshake.v
theories/SHandshake.v
theories/SHsApi.v
theories/ToyHs.v
theories/THsApi.v
theories/PHandshake.v
theories/PHsTok.v
theories/PHsMsg.v
theories/SNoise.v
theories/PHsStart.v
theories/PHsRun.v
theories/PHsOpen.v
theories/ToyNoise.v
theories/THsStart.v
theories/SAgree.v
theories/PHsSize.v
theories/PHsAgree.v
theories/PHsTalk.v
theories/THsAgree.v
theories/PHsStage.v
theories/THsSize.v
theories/THsKeys.v
theories/MProto.v
theories/SProto.v
theories/PProtoNum.v
theories/PProto.v
theories/PProtoRead.v
theories/PProtoSafe.v
theories/PProtoUtf8.v
theories/TProto.v
theories/TProto2.v
theories/MArray.v
theories/SArray.v
theories/PArray.v
theories/TArray.v
theories/MCert.v
theories/SCert.v
theories/PCert.v
theories/PCertRead.v
theories/PCertBack.v
theories/PCertSafe.v
theories/TCert.v
theories/MLoader.v
theories/SLoader.v
theories/PLoader.v
theories/PLoaderSave.v
theories/PLoaderLoad.v
theories/TLoader.v
theories/PLoaderCert.v
theories/TLoaderFile.v
theories/MChaCha.v
theories/SChaCha.v
theories/PChaCha.v
theories/TChaCha.v
theories/MPoly1305.v
theories/SPoly1305.v
theories/PPoly1305.v
theories/PPoly1305b.v
theories/TPoly1305.v
theories/MPoly32.v
theories/PPoly32.v
theories/PPoly32b.v
theories/TPoly32.v
theories/MNewhope.v
theories/SNewhope.v
theories/PNewhope.v
theories/TNewhope.v
theories/MSha3.v
theories/SSha3.v
theories/PSha3.v
theories/PSha3b.v
theories/TSha3.v
theories/MBatcher.v
theories/SBatcher.v
theories/PBatcher.v
theories/PBatcherb.v
theories/TBatcher.v
theories/MChaChaPoly.v
theories/SChaChaPoly.v
theories/PChaChaPoly.v
theories/TChaChaPoly.v
theories/MRand.v
theories/SRand.v
theories/PRand.v
theories/TRand.v
theories/MGhash.v
theories/SGhash.v
theories/PGhash.v
theories/TGhash.v
theories/MAesTables.v
theories/MAes.v
theories/SAes.v
theories/PAes.v
theories/TAes.v
theories/MAesGcm.v
theories/SAesGcm.v
theories/PAesGcm.v
theories/TAesGcm.v
theories/MSign.v
theories/SSign.v
theories/PSign.v
theories/TSign.v
theories/MEcho.v
theories/SEcho.v
theories/TEcho.v
theories/TBase64.v
theories/SFallback.v
theories/PHsFall.v
theories/PHsFall2.v
theories/THsFall.v
theories/SX25519.v
theories/MX25519.v
theories/PPrime.v
theories/PX25519.v
theories/PX25519b.v
theories/PX25519c.v
theories/TX25519.v
theories/PPrimeL.v
theories/PField.v
theories/PEdwards.v
theories/PX25519d.v
theories/PX25519e.v
theories/PX25519f.v
theories/TDhAgree.v
theories/MEdTable.v
theories/MEd25519.v
theories/PEd25519.v
theories/PEdRep.v
theories/PEd25519b.v
theories/PEdTable.v
theories/PEd25519c.v
theories/PEd25519d.v
theories/TEdBase.v
theories/MEdSlide.v
theories/MEdSign.v
theories/SEd25519.v
theories/PModm.v
theories/PEdSpec.v
theories/PEdSign.v
theories/TEdSign.v
theories/PEdSlide.v
theories/PEdDouble.v
theories/PEdMulti.v
theories/PEdUnpack.v
theories/PEdVerify.v
theories/TEdVerify.v
theories/MLibrary.v
theories/TLibrary.v
