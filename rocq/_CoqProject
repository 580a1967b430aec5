-Q theories Verif
theories/Base.v
theories/Params.v
theories/Geom.v
theories/TT2d.v
theories/Bicycle.v
theories/NTrailer.v
theories/Acc.v
theories/Rollout.v
theories/Planner.v
theories/Instances.v
theories/EnvModel.v
theories/Setup.v
theories/Config.v
theories/Demo.v
theories/Stats.v
theories/Projection.v
theories/Guidance.v
theories/Cache.v
theories/CacheInst.v
theories/Anim.v
theories/SpecGeom.v
theories/SpecBodies.v
theories/SpecDyn.v
theories/BaseFacts.v
theories/SpecInput.v
theories/SpecPlan.v
theories/InputFacts.v
theories/ProofsGeom.v
theories/ProofsBodies.v
theories/ProofsKin.v
theories/ProofsRobots.v
theories/ProofsSafety.v
theories/PropSafety.v
theories/ProofsChecks.v
theories/PropChecks.v
theories/ProofsStep.v
theories/PropStep.v
theories/SpecEnv.v
theories/SpecConfig.v
theories/SpecMotion.v
theories/SpecSym.v
theories/SpecMirror.v
theories/SpecAcc.v
theories/SpecDiffusion.v
theories/SpecDefaults.v
theories/SpecDisc.v
theories/SpecSweep.v
theories/SpecCache.v
theories/SpecAnim.v
theories/SpecProj.v
theories/SpecGuid.v
theories/SpecStats.v
theories/SpecDemo.v
theories/SpecReward.v
theories/ProofsSim.v
theories/ProofsDyn.v
theories/PropDyn.v
theories/ProofsSym.v
theories/PropSym.v
theories/ProofsFrame.v
theories/PropFrame.v
theories/ProofsSymAcc.v
theories/PropSymAcc.v
theories/ProofsPlanner.v
theories/PropPlanner.v
theories/ProofsReward.v
theories/PropReward.v
theories/ProofsAcc.v
theories/PropAcc.v
theories/ProofsEnv.v
theories/PropEnv.v
theories/ProofsSetup.v
theories/PropSetup.v
theories/ProofsConfig.v
theories/PropConfig.v
theories/ProofsDemo.v
theories/PropDemo.v
theories/ProofsDemoScore.v
theories/PropDemoScore.v
theories/ProofsStats.v
theories/PropStats.v
theories/ProofsProj.v
theories/PropProj.v
theories/ProofsGuid.v
theories/PropGuid.v
theories/ProofsCache.v
theories/PropCache.v
theories/ProofsCacheInst.v
theories/PropCacheInst.v
theories/ProofsAnim.v
theories/PropAnim.v
theories/ProofsFiles.v
theories/PropFiles.v
theories/Bench.v
theories/SpecBench.v
theories/ProofsBench.v
theories/PropBench.v
theories/Tune.v
theories/SpecTune.v
theories/ProofsTune.v
theories/PropTune.v
theories/Picture.v
theories/SpecPicture.v
theories/ProofsPicture.v
theories/PropPicture.v
theories/ProofsDiffusion.v
theories/PropDiffusion.v
theories/ProofsDefaults.v
theories/PropDefaults.v
theories/ProofsDisc.v
theories/PropDisc.v
theories/ProofsSweep.v
theories/PropSweep.v
theories/Harness.v
theories/Recipes.v
theories/SpecHarness.v
theories/ProofsHarness.v
theories/PropHarness.v
theories/ProofsHarnessRun.v
theories/PropHarnessRun.v
theories/ProofsHarnessJudge.v
theories/PropHarnessJudge.v
theories/HarnessSave.v
theories/SpecHarnessSave.v
theories/SpecRecipes.v
theories/Float.v
theories/SpecFloat.v
theories/FloatSingle.v
theories/ProofsFloatGeom.v
theories/ProofsFloatSat.v
theories/ProofsFloatCircle.v
theories/ProofsFloatRun.v
theories/ProofsFloatAlarm.v
theories/ProofsFloatSingle.v
theories/ProofsFloat.v
theories/PropFloat.v
theories/ProofsFloatTrack.v
theories/PropFloatTrack.v
theories/SpecDetail.v
theories/ProofsDetail.v
theories/PropDetail.v
theories/ProofsRecipes.v
theories/PropRecipes.v
theories/ProofsReadme.v
theories/PropReadme.v
theories/ProofsExample.v
theories/PropExample.v
theories/SpecTight.v
theories/ProofsTight.v
theories/ProofsDrawn.v
theories/PropTight.v
theories/ProofsStrict.v
theories/PropStrict.v
theories/SpecMix.v
theories/ProofsMix.v
theories/PropMix.v
theories/TuneSave.v
theories/SpecTuneSave.v
theories/ProofsTuneSave.v
theories/PropTuneSave.v
theories/SpecTemp.v
theories/StatMain.v
theories/ProofsHarnessSave.v
theories/PropHarnessSave.v
theories/ProofsTemp.v
theories/PropTemp.v
theories/ProofsStatMain.v
theories/PropStatMain.v
theories/PropDrawn.v
theories/SpecReach.v
theories/SpecUnits.v
theories/ProofsMirror.v
theories/PropMirror.v
theories/ProofsMirrorDemo.v
theories/PropMirrorDemo.v
theories/ProofsFrameDemo.v
theories/PropFrameDemo.v
theories/ProofsSweepAcc.v
theories/PropSweepAcc.v
theories/TuneWandb.v
theories/SpecTuneWandb.v
theories/ProofsTuneWandb.v
theories/PropTuneWandb.v
theories/ProofsReach.v
theories/PropReach.v
theories/ProofsReachDemo.v
theories/PropReachDemo.v
theories/ProofsUnits.v
theories/PropUnits.v
theories/ProofsFewer.v
theories/PropFewer.v
