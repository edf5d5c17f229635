-Q theories Verif
theories/Num.v
theories/Types.v
theories/Algo.v
theories/Constant.v
theories/R4Sat.v
theories/Transport.v
theories/Reg1.v
theories/Reg2.v
theories/Reg5.v
theories/Reg3Td.v
theories/Boundaries.v
theories/Reg1Back.v
theories/Reg2Back.v
theories/Reg5Back.v
theories/Reg3Sub.v
theories/Reg3V.v
theories/Reg3.v
theories/Reg4.v
theories/Region.v
theories/Api.v
theories/Bindings.v
theories/FloatInst.v
theories/Conform.v
theories/RealInst.v
theories/RegionCodes.v
theories/Spec.v
theories/SpecReal.v
theories/Control.v
theories/Consist.v
theories/InstFacts.v
theories/NanFacts.v
theories/FloatOrder.v
theories/RegionMap.v
theories/FloatErr.v
theories/RealSat.v
theories/SatFloat.v
theories/RegionPt.v
theories/PropsDispatch.v
theories/PropsRegion.v
theories/Steps.v
theories/RSums.v
theories/Gibbs.v
theories/GibbsModel.v
theories/GibbsModel5.v
theories/GibbsModel3.v
theories/SpecThermo.v
theories/ThermoApi.v
theories/ThermoApi3.v
theories/ThermoPts.v
theories/PropsThermo.v
theories/SpecSums.v
theories/SumUses.v
theories/SpecSub3.v
theories/Sub3.v
theories/PropsSums.v
theories/SatInv.v
theories/SatApi.v
theories/SpecWet.v
theories/Lever.v
theories/LeverReal.v
theories/SatBand1.v
theories/SatBand2.v
theories/WetGap.v
theories/PropsSat.v
theories/PropsWet.v
theories/TransFacts.v
theories/TransReal.v
theories/PropsTransport.v
theories/LoopFacts.v
theories/SpecSolver.v
theories/Solver.v
theories/Bisect.v
theories/BisectPt.v
theories/PropsSolver.v
theories/TermFacts.v
theories/TermFloat.v
theories/FastHs.v
theories/HsLoop.v
theories/HsTerm.v
theories/PropsTerm.v
theories/SpecInverse.v
theories/Clamp.v
theories/ClampFloat.v
theories/Clamp12.v
theories/PropsInverse.v
theories/FloatUp.v
theories/TaylorAlg.v
theories/Taylor.v
theories/TaylorSum.v
theories/TaylorSub.v
theories/Enc1.v
theories/SatNode.v
theories/Enc2.v
theories/Bound1.v
theories/Bound2.v
theories/Tree1.v
theories/Tree2.v
theories/Tree2psb.v
theories/Tree2psa.v
theories/Tree2phb.v
theories/Tree2pha.v
theories/Tree1b.v
theories/Tree1ph.v
theories/Tree1ps.v
theories/Tree1hs.v
theories/SpecStable.v
theories/SpecGas.v
theories/SpecSteam.v
theories/SpecMap.v
theories/Stab1.v
theories/Stab5.v
theories/Stab2.v
theories/Back2.v
theories/Map12.v
theories/Gap25.v
theories/PropsGas.v
theories/PropsMap.v
theories/PropsSteam.v
theories/PropsStable.v
theories/SpecIso.v
theories/TreeE.v
theories/Expand.v
theories/TvMap.v
theories/IsoMap.v
theories/PvMap.v
theories/PropsIso.v
theories/Enc2hs.v
theories/Bound2hs.v
theories/Tree2hs.v
theories/Back2hs.v
theories/Enc2m.v
theories/Bound2m.v
theories/Tree2m.v
theories/HsLine.v
theories/SpecHs.v
theories/HsBase.v
theories/MapHs.v
theories/Enc1m.v
theories/Bound1m.v
theories/Tree1m.v
theories/MapHs1.v
theories/PropsHs.v
theories/Visc.v
theories/Diel.v
theories/PropsFluid.v
theories/TreeT.v
theories/ThMap.v
theories/PropsTh.v
theories/WetTrip.v
theories/PropsTrip.v
theories/WetAgree.v
theories/PropsAgree.v
theories/WetEnergy.v
theories/PropsEnergy.v
theories/Iso3.v
theories/PropsIso3.v
