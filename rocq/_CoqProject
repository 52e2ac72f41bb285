-Q theories Verif
theories/Prelude.v
theories/PreludeFacts.v
theories/MockFunModel.v
theories/CADbSpec.v
theories/CADbProofs.v
theories/CADbProperties.v
theories/CAModel.v
theories/CAFacts.v
theories/CAUpdates.v
theories/CAPres.v
theories/CASpec.v
theories/CAProofs.v
theories/CATxProofs.v
theories/CAHistProofs.v
theories/CAStepProofs.v
theories/CAReqProofs.v
theories/CAAuthProofs.v
theories/CALifeProofs.v
theories/CAWitness.v
theories/CAProperties.v
theories/LatBase.v
theories/LatSpec.v
theories/LatFacts.v
theories/LatRing.v
theories/LatNtt.v
theories/MlKemModel.v
theories/MlKemNtt.v
theories/MlKemSpec.v
theories/MlKemCodec.v
theories/MlKemProofs.v
theories/MlKemKem.v
theories/MlKemMore.v
theories/MlKemWitness.v
theories/MlKemProperties.v
theories/MlDsaModel.v
theories/MlDsaNtt.v
theories/MlDsaCodec.v
theories/MlDsaSpec.v
theories/MlDsaHint.v
theories/MlDsaRound.v
theories/MlDsaRing.v
theories/MlDsaSample.v
theories/MlDsaEnc.v
theories/MlDsaSig.v
theories/MlDsaTop.v
theories/MlDsaWitness.v
theories/MlDsaProperties.v
theories/SlhModel.v
theories/SlhAdrs.v
theories/SlhDigits.v
theories/SlhSpec.v
theories/SlhChecksum.v
theories/SlhWots.v
theories/SlhTree.v
theories/SlhHt.v
theories/SlhBind.v
theories/SlhWitness.v
theories/SlhTop.v
theories/SlhProperties.v
theories/SlhHash.v
theories/SlhHashProperties.v
theories/PqKeyModel.v
theories/PqKeySpec.v
theories/PqKeyProofs.v
theories/PqKeyMore.v
theories/PqKeyUse.v
theories/PqKeyExact.v
theories/PqKeyProperties.v
theories/HdrModel.v
theories/HdrSpec.v
theories/HdrProofs.v
theories/HdrMore.v
theories/HdrProperties.v
theories/CertChainModel.v
theories/CertChainSpec.v
theories/CertChainProofs.v
theories/CertChainMore.v
theories/CertChainProperties.v
theories/CompSigModel.v
theories/CompSigSpec.v
theories/CompSigProofs.v
theories/CompSigProperties.v
theories/CompLoadModel.v
theories/CompLoadSpec.v
theories/CompLoadProofs.v
theories/CompLoadProperties.v
theories/RsaMath.v
theories/TradKemModel.v
theories/TradKemSpec.v
theories/TradKemProofs.v
theories/TradKemProperties.v
theories/HybKemModel.v
theories/HybKemSpec.v
theories/HybKemProofs.v
theories/HybKemWitness.v
theories/HybKemProperties.v
theories/HybLoadModel.v
theories/HybLoadSpec.v
theories/HybLoadProofs.v
theories/HybLoadMore.v
theories/HybLoadFull.v
theories/HybLoadProperties.v
theories/FrodoModel.v
theories/FrodoSpec.v
theories/FrodoProofs.v
theories/FrodoKem.v
theories/FrodoTop.v
theories/FrodoMain.v
theories/FrodoProperties.v
theories/StfModel.v
theories/StfSpec.v
theories/StfProofs.v
theories/StfHss.v
theories/StfMore.v
theories/StfRef.v
theories/StfKeys.v
theories/StfProperties.v
theories/PyStr.v
theories/PyStrProofs.v
theories/BitModel.v
theories/BitSpec.v
theories/BitProofs.v
theories/BitMore.v
theories/BitUsage.v
theories/BitReq.v
theories/BitProperties.v
theories/ProtTab.v
theories/ProtModel.v
theories/ProtSpec.v
theories/ProtMac.v
theories/ProtMacMsg.v
theories/ProtDh.v
theories/ProtSig.v
theories/ProtKem.v
theories/ProtKind.v
theories/ProtToy.v
theories/ProtProperties.v
theories/ProtMatchModel.v
theories/ProtMatchSpec.v
theories/ProtMatchProofs.v
theories/ProtMatchSig.v
theories/ProtPw.v
theories/ProtMatchProperties.v
theories/ProtHybModel.v
theories/ProtHybSpec.v
theories/ProtHybProofs.v
theories/ProtHybRound.v
theories/ProtHybMore.v
theories/ProtHybProperties.v
theories/PopModel.v
theories/PopSpec.v
theories/PopProofs.v
theories/PopIssue.v
theories/PopMore.v
theories/PopToy.v
theories/PopProperties.v
theories/CtrlModel.v
theories/CtrlSpec.v
theories/CtrlProofs.v
theories/CtrlProperties.v
theories/PairModel.v
theories/PairSpec.v
theories/PairProofs.v
theories/PairQuote.v
theories/PairProperties.v
theories/ChamModel.v
theories/ChamSpec.v
theories/ChamProofs.v
theories/ChamReq.v
theories/ChamIssue.v
theories/ChamMore.v
theories/ChamToy.v
theories/ChamProperties.v
theories/EnvlModel.v
theories/EnvlSpec.v
theories/EnvlProofs.v
theories/EnvlBuild.v
theories/EnvlForm.v
theories/EnvlToy.v
theories/EnvlProperties.v
theories/SdModel.v
theories/SdSpec.v
theories/SdAlgs.v
theories/SdProofs.v
theories/SdBuild.v
theories/SdToy.v
theories/SdProperties.v
theories/KgaModel.v
theories/KgaSpec.v
theories/KgaProofs.v
theories/KgaProperties.v
theories/CatModel.v
theories/CatSpec.v
theories/CatProofs.v
theories/CatCrl.v
theories/CatToy.v
theories/CatProperties.v
theories/SunModel.v
theories/SunSpec.v
theories/SunProofs.v
theories/SunForm.v
theories/SunVerify.v
theories/SunIssue.v
theories/SunToy.v
theories/SunProperties.v
theories/RelModel.v
theories/RelSpec.v
theories/RelProofs.v
theories/RelToy.v
theories/RelProperties.v
theories/CmpModel.v
theories/CmpSpec.v
theories/CmpProofs.v
theories/CmpToy.v
theories/CmpProperties.v
theories/MigModel.v
theories/MigSpec.v
theories/MigProofs.v
theories/MigProperties.v
theories/GenModel.v
theories/GenSpec.v
theories/GenProofs.v
theories/GenHandler.v
theories/GenReply.v
theories/GenProperties.v
theories/ChlModel.v
theories/ChlSpec.v
theories/ChlProofs.v
theories/ChlProperties.v
theories/RspModel.v
theories/RspSpec.v
theories/RspProofs.v
theories/RspProperties.v
theories/HyhModel.v
theories/HyhSpec.v
theories/HyhProofs.v
theories/HyhProperties.v
theories/XtsModel.v
theories/XtsSpec.v
theories/XtsProofs.v
theories/XtsProperties.v
theories/RcpModel.v
theories/RcpSpec.v
theories/RcpProofs.v
theories/RcpProperties.v
theories/SgpModel.v
theories/SgpSpec.v
theories/SgpProofs.v
theories/SgpProperties.v
