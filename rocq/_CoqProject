-Q theories Verif
theories/AllocModel.v
theories/AllocProofs.v
theories/AllocSpec.v
theories/AvcModel.v
theories/AvcNan.v
theories/AvcProofs.v
theories/Base.v
theories/CMacros.v
theories/Cheb.v
theories/ConfigModel.v
theories/Conv.v
theories/ConvPoly.v
theories/ConvSpec.v
theories/CosSum.v
theories/Dec.v
theories/DecBall.v
theories/E5Model.v
theories/ExBz.v
theories/ExGrid.v
theories/ExHam.v
theories/ExModel.v
theories/ExOreg.v
theories/ExOuter.v
theories/ExSpec.v
theories/ExTop.v
theories/ExtReal.v
theories/F64.v
theories/FieldLU.v
theories/FlowSpec.v
theories/Gauss.v
theories/HessCPath.v
theories/HessCProofs.v
theories/HessCWitness.v
theories/HessModel.v
theories/HessPathModel.v
theories/HessPathProofs.v
theories/HessProofs.v
theories/HessSafe.v
theories/HessWitness.v
theories/JacModel.v
theories/JacProofs.v
theories/LMainModel.v
theories/LMainProofs.v
theories/LaplModel.v
theories/LaplProofs.v
theories/LaplSpec.v
theories/LaplTop.v
theories/LayoutCases.v
theories/LayoutModel.v
theories/LayoutProofs.v
theories/LayoutReport.v
theories/LogModel.v
theories/LogProofs.v
theories/MainModel.v
theories/MainProofs.v
theories/PivotSpec.v
theories/Props_Alloc.v
theories/Props_Ex.v
theories/Props_F64.v
theories/Props_Flow.v
theories/Props_Hess.v
theories/Props_Jac.v
theories/Props_LMain.v
theories/Props_Layout.v
theories/Props_Main.v
theories/Props_Radau.v
theories/Props_RadauConv.v
theories/Props_RadauF64.v
theories/Props_RadauRun.v
theories/Props_Repeat.v
theories/Props_RepeatB.v
theories/Props_Rock4.v
theories/Props_Rock4Conv.v
theories/Props_Rock4L.v
theories/Props_Rock4Order.v
theories/Props_Rock4Stages.v
theories/Props_Rock4Tab.v
theories/Props_Rodas.v
theories/Props_RodasConv.v
theories/Props_RodasF64.v
theories/Props_RodasStep.v
theories/Props_Sdirk.v
theories/Props_SdirkConv.v
theories/Props_SdirkMain.v
theories/Props_SdirkTab.v
theories/Props_Symp.v
theories/Props_Test.v
theories/Props_Vec.v
theories/RKSpec.v
theories/RadauAcc.v
theories/RadauAlg.v
theories/RadauCase.v
theories/RadauColl.v
theories/RadauConst.v
theories/RadauConv.v
theories/RadauConvCase.v
theories/RadauConvSpec.v
theories/RadauCount.v
theories/RadauF64.v
theories/RadauF64Newton.v
theories/RadauF64Run.v
theories/RadauF64Wit.v
theories/RadauFinal.v
theories/RadauGuard.v
theories/RadauLinear.v
theories/RadauModel.v
theories/RadauPert.v
theories/RadauProofs.v
theories/RadauReal.v
theories/RadauRun.v
theories/RadauSpec.v
theories/RadauStart.v
theories/RadauStep.v
theories/RadauTop.v
theories/RadauWitness.v
theories/RadauWitness2.v
theories/RadauWitness3.v
theories/RadauZero.v
theories/RepeatCase.v
theories/RepeatLapack.v
theories/RepeatProofs.v
theories/RepeatRadau.v
theories/RepeatRock.v
theories/RepeatRockL.v
theories/RepeatSpec.v
theories/RepeatSymp.v
theories/RepeatWitness.v
theories/Rock4Acc.v
theories/Rock4Affine.v
theories/Rock4Check.v
theories/Rock4Conv.v
theories/Rock4ConvSpec.v
theories/Rock4Cor.v
theories/Rock4Drive.v
theories/Rock4F64.v
theories/Rock4F64Term.v
theories/Rock4F64Top.v
theories/Rock4F64Wit.v
theories/Rock4LDrive.v
theories/Rock4LModel.v
theories/Rock4LProofs.v
theories/Rock4LSpec.v
theories/Rock4Model.v
theories/Rock4Omp.v
theories/Rock4Order.v
theories/Rock4OrderK.v
theories/Rock4Poly.v
theories/Rock4Proofs.v
theories/Rock4Real.v
theories/Rock4Spec.v
theories/Rock4Stab.v
theories/Rock4StabA.v
theories/Rock4StabB.v
theories/Rock4StabC.v
theories/Rock4StabEval.v
theories/Rock4StabKer.v
theories/Rock4StabRef.v
theories/Rock4StabThm.v
theories/Rock4Stages.v
theories/Rock4Step.v
theories/Rock4TabL.v
theories/Rock4TabNG.v
theories/Rock4TabSpec.v
theories/Rock4Term.v
theories/Rock4Witness.v
theories/RodasAffine.v
theories/RodasCase.v
theories/RodasConv.v
theories/RodasConvSpec.v
theories/RodasF64.v
theories/RodasF64Wit.v
theories/RodasFinal.v
theories/RodasLinear.v
theories/RodasModel.v
theories/RodasOrder.v
theories/RodasProofs.v
theories/RodasReal.v
theories/RodasSpec.v
theories/RodasStab.v
theories/RodasStab2.v
theories/RodasStep.v
theories/RodasTerm.v
theories/RodasTop.v
theories/RodasWitness.v
theories/SdirkAlg.v
theories/SdirkConv.v
theories/SdirkConvTop.v
theories/SdirkMainModel.v
theories/SdirkMainProofs.v
theories/SdirkModel.v
theories/SdirkProofs.v
theories/SdirkSpec.v
theories/SdirkStab.v
theories/SdirkTab.v
theories/SdirkTabSpec.v
theories/SdirkTop.v
theories/Spec.v
theories/StepF64.v
theories/SympEnd.v
theories/SympFixed.v
theories/SympModel.v
theories/SympProofs.v
theories/SympQuad.v
theories/SympSpec.v
theories/SympTabChk.v
theories/SympTabProofs.v
theories/SympTabTop.v
theories/SympTables.v
theories/SympTop.v
theories/TestModel.v
theories/TestProofs.v
theories/VecFun.v
theories/VecModel.v
theories/VecProofs.v
