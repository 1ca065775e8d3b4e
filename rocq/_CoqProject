-Q theories Verif

theories/CInt.v
theories/CIntFacts.v
theories/Packet.v
theories/SpecPacket.v
theories/PacketFacts.v
theories/PropPacket.v
theories/HwRadio.v
theories/HwFacts.v
theories/PropHw.v
theories/NetMgr.v
theories/NetHist.v
theories/SpecNet.v
theories/NetFacts.v
theories/PropNet.v
theories/Flood.v
theories/SpecFlood.v
theories/FloodFacts.v
theories/StormFacts.v
theories/PropFlood.v
theories/Rsm.v
theories/RsmStep.v
theories/RsmEval.v
theories/RsmHist.v
theories/SpecRsm.v
theories/RsmFacts.v
theories/RsmTime.v
theories/RsmRun.v
theories/RoleFacts.v
theories/PropRole.v
theories/PropHeartbeat.v
theories/EffectFacts.v
theories/PropEffect.v
theories/PropHold.v
theories/PropApi.v
theories/PropWrap.v
theories/PropTick.v
theories/PropNetTime.v
theories/PropPair.v
theories/Fastled.v
theories/Maths.v
theories/Palette.v
theories/SpecColor.v
theories/PaletteFacts.v
theories/PropMath.v
theories/PropColor.v
theories/Device.v
theories/LedMgr.v
theories/SpecLed.v
theories/LedFacts.v
theories/PropTable.v
theories/RenderFacts.v
theories/PropRender.v
theories/Effects.v
theories/SpecEffect.v
theories/RgbFacts.v
theories/Show.v
theories/ShowFacts.v
theories/PropShow.v
theories/PropAnim.v
theories/Controller.v
theories/SpecController.v
theories/ControllerFacts.v
theories/PropController.v
theories/Battery.v
theories/SpecBattery.v
theories/PropBattery.v
theories/Flash.v
theories/SpecFlash.v
theories/PropFlash.v
theories/TakeFacts.v
theories/Dmx.v
theories/SpecDmx.v
theories/PropDmx.v
theories/BeginMasterRace.v
theories/PropRace.v
theories/PropRsmHw.v
theories/Boot.v
theories/PropBoot.v
theories/Node.v
theories/PropNode.v
theories/PropNetwork.v
theories/PropNetSafe.v
theories/PropOneMaster.v
theories/PropCatchUp.v
theories/PropNoise.v
theories/PropInStep.v
theories/PropOrder.v
theories/FancyNode.v
theories/PropFancy.v
theories/PropMotion.v
theories/PropStartUp.v
theories/PropPowerUp.v
theories/PropUnstarved.v
theories/PropFailOver.v
theories/Bench.v
theories/PropBench.v
theories/PropMerge.v
theories/PropConsole.v
theories/PropAir.v
theories/Seed.v
theories/PropSeed.v
theories/PropFair.v
theories/PropPicture.v
theories/FakeNet.v
theories/FakeNetFacts.v
theories/PropFakeNet.v
theories/SimFacts.v
theories/PropSim.v
theories/PropPalettes.v
theories/PropFailSim.v
theories/AgreeFacts.v
theories/AgreeRun.v
theories/PaceRun.v
theories/PropAgree.v
theories/Timetable.v
theories/PropTimes.v
theories/Reboot.v
theories/PropReboot.v
theories/CtrlProgram.v
theories/PropCtrlProgram.v
theories/Lull.v
theories/Visits.v
theories/PropComeGo.v
theories/UnitTests.v
theories/UnitFacts.v
theories/UnitRuns.v
theories/UnitManager.v
theories/PropUnitTests.v
theories/LossFacts.v
theories/PropLoss.v
theories/EffectTests.v
theories/EffectRuns.v
theories/PropEffectTests.v
theories/SmallTests.v
theories/PropSmallTests.v
theories/RsmClock.v
theories/ClockFacts.v
theories/SpecClock.v
theories/ClockRun.v
theories/PropClock.v
theories/PropClock2.v
theories/SpreadRun.v
theories/PropSpread.v
theories/PropChoice.v
theories/PropIntegration.v
theories/PropDropOut.v
theories/PropMildLoss.v
theories/TieFacts.v
theories/PropTie.v
theories/PropTieLater.v
theories/PropDrift.v
theories/Settled.v
theories/PropLossy.v
theories/PropLossyOrder.v
theories/PropLossyStart.v
theories/PropInAndOut.v
theories/DeadRadio.v
theories/PropDeadRadio.v
theories/PropMeeting.v
theories/PropTraffic.v
theories/PropQuietAir.v
theories/PropBeats.v
