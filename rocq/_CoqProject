-Q theories Verif

theories/Types.v
theories/State.v
theories/Balances.v
theories/NftModel.v
theories/MarketModel.v
theories/AuctionModel.v
theories/RentModel.v
theories/TransModel.v
theories/TeeModel.v
theories/BridgeModel.v
theories/Runtime.v
theories/Tactics.v
theories/Spec.v
theories/Demo.v
theories/Demo5.v
theories/DemoSlow.v
theories/Access.v
theories/Sreach.v
theories/Frame.v
theories/Later.v
theories/InvNft.v
theories/InvNft2.v
theories/InvNft3.v
theories/InvNft4.v
theories/InvNft5.v
theories/NftStep.v
theories/NftStep2.v
theories/NftHook.v
theories/Lists.v
theories/InvColl.v
theories/Soul.v
theories/Soul2.v
theories/Engaged.v
theories/NftFacts.v
theories/Bal.v
theories/NftFacts2.v
theories/MktFacts.v
theories/Queue.v
theories/Ahead.v
theories/AucInv.v
theories/Pots.v
theories/AucSolv.v
theories/AucHook.v
theories/SpecAuction.v
theories/AucFacts.v
theories/RentInv.v
theories/RentOk.v
theories/RentSolv.v
theories/SpecRent.v
theories/RentEff.v
theories/RentHook.v
theories/RentFacts.v
theories/RentFacts2.v
theories/RentFacts3.v
theories/RentFacts4.v
theories/RentFacts5.v
theories/TransInv.v
theories/SpecTrans.v
theories/TransFacts.v
theories/TransFacts2.v
theories/TransFacts3.v
theories/SpecWait.v
theories/TransWait.v
theories/SpecTee.v
theories/TeeInv.v
theories/TeeInv2.v
theories/RentWait.v
theories/AucWait.v
theories/PropsWait.v
theories/TeeFacts.v
theories/TeeFacts2.v
theories/TeeFacts3.v
theories/SpecBridge.v
theories/BridgeFacts.v
theories/BridgeFacts2.v
theories/BridgeFacts3.v
theories/SpecTokens.v
theories/Tokens.v
theories/TeeFacts4.v
theories/PropsAccess.v
theories/PropsNft.v
theories/PropsAuction.v
theories/RentSelf.v
theories/PropsRent.v
theories/PropsTrans.v
theories/PropsTee.v
theories/PropsBridge.v
theories/PropsTokens.v
theories/SpecRules.v
theories/RuleCalc.v
theories/RuleMoney.v
theories/RuleNft.v
theories/RuleMkt.v
theories/RuleAuc.v
theories/RuleRent.v
theories/RuleTrans.v
theories/RuleTee.v
theories/RuleAdmin.v
theories/PropsRules.v
theories/SpecEffects.v
theories/EffCalc.v
theories/EffNft.v
theories/EffMkt.v
theories/EffAuc.v
theories/EffRent.v
theories/EffTrans.v
theories/EffTee.v
theories/EffBal.v
theories/Effects.v
theories/PropsEffects.v
theories/SpecBlock.v
theories/BlockFacts.v
theories/PropsBlock.v
theories/SpecEnd.v
theories/FreeFacts.v
theories/CanEnd.v
theories/PropsFree.v
theories/SpecReasons.v
theories/ErrCalc.v
theories/ErrNft.v
theories/ErrMkt.v
theories/ErrAuc.v
theories/ErrRent.v
theories/ErrTrans.v
theories/ErrTee.v
theories/ErrAdmin.v
theories/PropsReasons.v
theories/SpecLog.v
theories/BlockLog.v
theories/PropsLog.v
theories/WeightModel.v
theories/SpecWeight.v
theories/WeightFacts.v
theories/WeightBound.v
theories/PropsWeight.v
theories/CallWeight.v
theories/SpecCall.v
theories/CallFacts.v
theories/PropsCall.v
theories/SpecOwed.v
theories/OwedFacts.v
theories/OwedBids.v
theories/OwedAll.v
theories/PropsOwed.v
theories/SpecAssets.v
theories/AssetsFacts.v
theories/PropsAssets.v
theories/QuietFacts.v
theories/PropsQuiet.v
theories/Replay.v
theories/ReplayAuction.v
theories/ReplayBridge.v
theories/ReplayTee.v
theories/ReplayMarket.v
theories/ReplayNft.v
theories/ReplayRent.v
theories/ReplayTrans.v
