-Q theories Verif
theories/Base.v
theories/Csys.v
theories/Sections.v
theories/Element.v
theories/Load.v
theories/FeModel.v
theories/Assembly.v
theories/Solver.v
theories/Post.v
theories/Api.v
theories/BaseFacts.v
theories/SpecApi.v
theories/ApiFacts.v
theories/WfFacts.v
theories/HidFacts.v
theories/ApiProofs1.v
theories/NumProofs.v
theories/ApiProofs2.v
theories/ApiProofs3.v
theories/LoadFacts.v
theories/ApiProofs4.v
theories/SpecElim.v
theories/ElimFacts.v
theories/SpecGeom.v
theories/CsysFacts.v
theories/SpecBeam.v
theories/BeamFacts.v
theories/MemberLoads.v
theories/AsmFacts.v
theories/SpecShell.v
theories/SpecKernel.v
theories/SpecAsm.v
theories/AsmProofs.v
theories/ShellFacts.v
theories/Kernels.v
theories/KernelProofs.v
theories/KernelProofs2.v
theories/KernelProofs4.v
theories/KernelProofs5.v
theories/Demo.v
theories/ApiProofs5.v
theories/ShellGeom.v
theories/Demo2.v
theories/NumDemo.v
theories/PropApi.v
theories/AsmTotal.v
theories/AsmProofs2.v
theories/PropElim.v
theories/PropGeom.v
theories/BeamProofs.v
theories/SpecSection.v
theories/TanhFacts.v
theories/SectionProofs.v
theories/PropBeam.v
theories/PropSection.v
theories/PropAsm.v
theories/SpecLoad.v
theories/LoadProofs.v
theories/AsmProofs3.v
theories/PropLoad.v
theories/SpecSolve.v
theories/AsmSolve.v
theories/SolveDemo.v
theories/AsmSolve2.v
theories/PropSolve.v
theories/SpecPost.v
theories/PostProofs.v
theories/PostDemo.v
theories/LoadQueries.v
theories/SpecMass.v
theories/MassProofs.v
theories/MergeProofs.v
theories/PropPost.v
theories/ShellProofs.v
theories/KernelProofs3.v
theories/KernelProofs6.v
theories/PropShell.v
theories/ShellDemo.v
theories/Dynamic.v
theories/SpecDyn.v
theories/DynProofs.v
theories/CqcProofs.v
theories/DynDemo.v
theories/PropDyn.v
theories/Spectrum.v
theories/SpecSpectrum.v
theories/SpectrumProofs.v
theories/PropSpectrum.v
theories/General.v
theories/SpecGeneral.v
theories/GeneralProofs.v
theories/GeneralProofs2.v
theories/GeneralProofs3.v
theories/GeneralProofs4.v
theories/PropGeneral.v
theories/PropKernel.v
theories/SpecTold.v
theories/ToldProofs.v
theories/SpecToldLoad.v
theories/ToldLoadProofs.v
theories/ToldDemo.v
theories/PropTold.v
theories/Grasshopper.v
theories/SpecGrasshopper.v
theories/GrasshopperProofs.v
theories/GrasshopperProofs2.v
theories/GrasshopperProofs3.v
theories/GrasshopperProofs4.v
theories/PropGrasshopper.v
theories/Seismic.v
theories/SpecSeismic.v
theories/SeismicProofs.v
theories/SeismicProofs2.v
theories/SeismicProofs3.v
theories/SeismicProofs4.v
theories/SeismicProofs5.v
theories/PropSeismic.v
theories/Thick.v
theories/SpecThick.v
theories/ThickProofs.v
theories/ThickProofs2.v
theories/ThickProofs3.v
theories/PropThick.v
theories/Meta.v
theories/SpecMeta.v
theories/MetaProofs.v
theories/MetaProofs2.v
theories/PropMeta.v
theories/BatchProofs.v
theories/BatchProofs2.v
theories/Dxf.v
theories/SpecDxf.v
theories/DxfProofs.v
theories/PropDxf.v
theories/Viewer.v
theories/SpecViewer.v
theories/ViewerProofs.v
theories/ViewerProofs2.v
theories/ViewerProofs3.v
theories/ViewDemo.v
theories/PropViewer.v
theories/Response.v
theories/SpecResponse.v
theories/ResponseProofs.v
theories/PropResponse.v
theories/S2k.v
theories/SpecS2k.v
theories/S2kProofs.v
theories/S2kCases.v
theories/PropS2k.v
theories/Mesh.v
theories/SpecMesh.v
theories/MeshProofs.v
theories/MeshCases.v
theories/ProjectProofs.v
theories/PropMesh.v
theories/SpecStatics.v
theories/StaticsProofs.v
theories/StaticsProofs2.v
theories/SpecIso.v
theories/IsoProofs.v
theories/IsoProofs2.v
theories/SpecSame.v
theories/SameProofs.v
theories/SameProofs2.v
theories/StifferProofs.v
theories/StaticsMain.v
theories/SpecCut.v
theories/CutFacts.v
theories/CutProofs.v
theories/CutProofs2.v
theories/StaticsDemo.v
theories/StaticsDemo2.v
theories/StaticsDemo3.v
theories/StaticsDemo4.v
theories/StaticsDemo5.v
theories/SameCode.v
theories/SameTria.v
theories/SameLevel.v
theories/RoofDemo.v
theories/PropStatics.v
theories/SolvableProofs.v
theories/GaussDemo.v
theories/SolvableDemo.v
theories/Build.v
theories/SpecBuild.v
theories/BuildProofs.v
theories/PropBuild.v
theories/PropIso.v
theories/CutDemo.v
theories/PropCut.v
theories/SpecModal.v
theories/ModalProofs.v
theories/SpecModal2.v
theories/ModalProofs2.v
theories/ModalDemo.v
theories/PropModal.v
theories/SpecTheory.v
theories/TheoryFacts.v
theories/TheoryProofs.v
theories/TheoryDemo.v
theories/PropTheory.v
theories/CText.v
theories/CTextT9.v
theories/CTextDKT.v
theories/CTextGQ12.v
theories/CTextDKQ.v
theories/CTextShell.v
theories/CTextFacts.v
theories/CTextProofs.v
theories/CTextProofs2.v
theories/CTextProofs3.v
theories/CTextProofs4.v
theories/CTextMain.v
theories/PropCText.v
theories/SpecFreq.v
theories/FreqProofs.v
theories/FreqProofs2.v
theories/FreqDemo.v
theories/PropFreq.v
theories/SpecEnergy.v
theories/EnergyProofs.v
theories/EnergyProofs2.v
theories/EnergyDemo.v
theories/EnergyDemo2.v
theories/PropEnergy.v
theories/GeneralProofs5.v
theories/PropArea.v
theories/SpecPart.v
theories/PartProofs.v
theories/PartProofs2.v
theories/PartProofs3.v
theories/PartDemo.v
theories/PartDemo2.v
theories/PropPart.v
theories/SpecPartModal.v
theories/PartModal.v
theories/PartModal2.v
theories/PartModalDemo.v
theories/PartModalDemo2.v
theories/PropPartModal.v
theories/GeneralResult.v
theories/SpecResult.v
theories/ResultProofs.v
theories/PropResult.v
theories/SpecSuper.v
theories/SuperProofs.v
theories/SuperDemo.v
theories/DriveDemo.v
theories/PropSuper.v
theories/Curve.v
theories/SpecCurve.v
theories/CurveProofs.v
theories/PropCurve.v
theories/DelayProofs.v
theories/PropDelay.v
theories/SpecScale.v
theories/ScaleProofs.v
theories/ScaleDemo.v
theories/PropScale.v
theories/ScaleProofs2.v
theories/ScaleProofs3.v
theories/PropScale2.v
theories/SpecStand.v
theories/StandProofs.v
theories/PropStand.v
theories/SpecUniform.v
theories/UniformProofs.v
theories/PropUniform.v
