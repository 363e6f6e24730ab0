-Q theories Verif
theories/Base.v
theories/Lib.v
theories/SpecRfc.v
theories/ModelUtils.v
theories/ProofUtils.v
theories/ModelParams.v
theories/ModelFips202.v
theories/ProofFipsBasic.v
theories/SpecFips202.v
theories/ProofFips.v
theories/ProofShake.v
theories/ModelHash.v
theories/ProofHash.v
theories/ModelWots.v
theories/ProofWots.v
theories/ModelCommons.v
theories/ProofCommons.v
theories/ModelCore.v
theories/ProofTree.v
theories/ProofCore.v
theories/ModelCoreFast.v
theories/ModelXmss.v
theories/ModelRandom.v
theories/ModelUi.v
theories/ModelTests.v
theories/ModelVectors.v
theories/SpecParams.v
theories/SpecComp.v
theories/ProofParams.v
theories/SpecApi.v
theories/ProofApi.v
theories/ProofHistory.v
theories/ProofToy.v
theories/ProofMain.v
theories/ProofMain2.v
theories/ProofMain3.v
theories/PropApi.v
theories/ProofComp.v
theories/ProofComp2.v
theories/PropComp.v
theories/SpecRandom.v
theories/ProofRandom.v
theories/SpecUi.v
theories/ProofUi.v
theories/ProofUi2.v
theories/PropUi.v
theories/SpecSec.v
theories/ProofSec.v
theories/ProofSec2.v
theories/ProofPath.v
theories/SpecForge.v
theories/SpecLast.v
theories/SpecTests.v
theories/ProofForge.v
theories/PropSec.v
theories/ProofSched.v
theories/ProofBds1.v
theories/ProofBds2.v
theories/ProofBds3.v
theories/ProofBds4.v
theories/ProofFast1.v
theories/ProofFast2.v
theories/SpecFast.v
theories/ProofFast3.v
theories/ProofFast4.v
theories/ProofFast5.v
theories/ProofFast6.v
theories/ProofFast7.v
theories/PropFast.v
theories/ProofMt1.v
theories/ProofMt2.v
theories/ProofMt3.v
theories/ProofMt4.v
theories/ProofMt5.v
theories/ProofMt6.v
theories/ProofMt7.v
theories/ProofStale.v
theories/ProofStale2.v
theories/ProofMt8.v
theories/ProofMt9.v
theories/ProofToy2.v
theories/ProofToy3.v
theories/ProofMt10.v
theories/PropMt.v
theories/ProofForge2.v
theories/PropForge.v
theories/ProofAny.v
theories/PropAny.v
theories/ProofBoth.v
theories/PropBoth.v
theories/SpecCustom.v
theories/SpecTools.v
theories/ProofCustom.v
theories/ProofUi3.v
theories/ProofUi4.v
theories/ProofUi5.v
theories/ProofLast.v
theories/ProofTests.v
theories/ProofTests2.v
theories/ProofTests3.v
theories/ProofWotsAny.v
theories/ProofUi6.v
theories/ProofUi7.v
theories/PropTools.v
theories/PropTests.v
theories/PropCustom.v
theories/SpecSwitch.v
theories/ProofSwitch.v
theories/PropSwitch.v
theories/SpecVectors.v
theories/ProofVectors.v
theories/ProofVectors2.v
theories/PropVectors.v
theories/ModelInPlace.v
theories/SpecInPlace.v
theories/ProofInPlace.v
theories/ProofInPlace2.v
theories/PropInPlace.v
theories/ModelThreads.v
theories/SpecThreads.v
theories/ProofThreads.v
theories/ProofThreads2.v
theories/ProofThreads3.v
theories/PropThreads.v
theories/SpecReuse.v
theories/ProofReuse.v
theories/ProofReuse2.v
theories/ModelShared.v
theories/ProofShared.v
theories/PropShared.v
theories/SpecOwner.v
theories/ProofOwner.v
theories/PropOwner.v
theories/SpecLayout.v
theories/ProofLayout.v
theories/PropLayout.v
theories/ModelCost.v
theories/ProofCost.v
theories/ProofCost2.v
theories/ProofCost3.v
theories/ProofCost4.v
theories/SpecCost.v
theories/ProofCost5.v
theories/PropCost.v
theories/ModelWork.v
theories/ModelWorkFast.v
theories/ProofWork.v
theories/ProofWork2.v
theories/ProofWork3.v
theories/ProofWork4.v
theories/SpecWork.v
theories/ProofWork5.v
theories/ProofWorkFast.v
theories/ProofWorkFast2.v
theories/ProofWorkFast3.v
theories/ProofWorkFast4.v
theories/ProofWorkFast5.v
theories/PropWork.v
theories/PropWorkFast.v
theories/ModelSpeed.v
theories/SpecSpeed.v
theories/ProofSpeed.v
theories/PropSpeed.v
theories/ModelLeak.v
theories/ModelLeakFast.v
theories/SpecLeak.v
theories/ProofLeak.v
theories/ProofLeak2.v
theories/ProofLeak3.v
theories/ProofLeak4.v
theories/ProofLeak5.v
theories/ProofLeak6.v
theories/ProofLeak7.v
theories/PropLeak.v
theories/ProofLeak8.v
theories/ProofLeak9.v
theories/ProofLeak10.v
theories/ProofLeak11.v
theories/ProofLeak12.v
theories/ProofLeak13.v
theories/ProofLeak14.v
theories/ProofLeak15.v
theories/ProofLeak16.v
theories/ProofLeak17.v
