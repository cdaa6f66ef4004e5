-Q theories Verif
theories/Base.v
theories/Types.v
theories/Uart.v
theories/Buffalo.v
theories/CmdTable.v
theories/Zpi.v
theories/SpecWire.v
theories/UartProofs.v
theories/UartProofs2.v
theories/PropsUart.v
theories/SpecCodec.v
theories/CodecProofs.v
theories/CodecProofs2.v
theories/CodecProofs3.v
theories/RequestProofs.v
theories/PropsCodec.v
theories/Api.v
theories/App.v
theories/SpecApi.v
theories/ApiProofs.v
theories/AppProofs.v
theories/AppProofs2.v
theories/PropsApp.v
theories/Machine.v
theories/SpecMachine.v
theories/SpecTrace.v
theories/MachineBase.v
theories/MachineInv.v
theories/MachineInv2.v
theories/MachineInv3.v
theories/MachineInv4.v
theories/MachineInv5.v
theories/DispatchProofs.v
theories/MachineProofs.v
theories/MachineProofs2.v
theories/MachineProofs3.v
theories/MachineProofs4.v
theories/MachineProofs5.v
theories/MachineProofs6.v
theories/MachineProofs7.v
theories/MachineProofs8.v
theories/MachineProofs9.v
theories/MachineProofs10.v
theories/MachineProofs11.v
theories/MachineProofs12.v
theories/MachineProgress.v
theories/PropsMachine.v
theories/PropsMachine2.v
theories/PropsMachine3.v
theories/PropsMachine4.v
theories/PropsMachine5.v
theories/Nv.v
theories/StartZnp.v
theories/SpecStart.v
theories/StartProofs.v
theories/StartProofs2.v
theories/StartProofs3.v
theories/StartProofs4.v
theories/StartProofs5.v
theories/StartProofs6.v
theories/StartProofs7.v
theories/StartProofs8.v
theories/StartExec.v
theories/StartProofs9.v
theories/StartProofs10.v
theories/StartSend.v
theories/StartLink.v
theories/PropsStart.v
theories/PropsStart2.v
theories/PropsStart3.v
theories/Host.v
theories/SpecHost.v
theories/HostProofs.v
theories/HostProofs2.v
theories/PropsHost.v
theories/SpecProgress.v
theories/MachineProgress2.v
theories/PropsProgress.v
theories/SpecEnds.v
theories/HostEnds.v
theories/PropsEnds.v
theories/Life.v
theories/SpecLife.v
theories/LifeProofs.v
theories/LifeProofs2.v
theories/LifeProofs3.v
theories/LifeProofs4.v
theories/PropsLife.v
theories/RepoTests.v
theories/AppStart.v
theories/SpecAppStart.v
theories/AppStartProofs.v
theories/PropsAppStart.v
theories/UartProofs3.v
theories/PropsUart2.v
theories/SpecFirst.v
theories/MachineFirst.v
theories/PropsFirst.v
theories/SpecReply.v
theories/MachineReply.v
theories/SpecExact.v
theories/ExactProofs.v
theories/PropsExact.v
theories/World.v
theories/WorldInv.v
theories/SpecWorld.v
theories/WorldFace.v
theories/WorldBase.v
theories/WorldProofs.v
theories/WorldLife.v
theories/WorldOps.v
theories/WorldFresh.v
theories/WorldProofs2.v
theories/WorldProofs3.v
theories/WorldProofs4.v
theories/WorldProofs5.v
theories/WorldProgress.v
theories/MachineFair.v
theories/MachineFair2.v
theories/SpecBlame.v
theories/MachineBlame.v
theories/PropsBlame.v
theories/SpecWorldProgress.v
theories/WorldProgress2.v
theories/PropsWorld.v
theories/PropsWorldEnd.v
theories/Whole.v
theories/WholeInv.v
theories/WholeHost.v
theories/WholeBase.v
theories/WholeProofs.v
theories/WholeProofs2.v
theories/SpecWhole.v
theories/WholeBlind.v
theories/WholeProofs3.v
theories/WholeProofs4.v
theories/WholeProofs5.v
theories/WholeTime.v
theories/WholeParts.v
theories/WholeInd.v
theories/WorldOwn.v
theories/WholeOwn.v
theories/WholeProofs6.v
theories/SpecWholeEnds.v
theories/WholeEnds.v
theories/WholeEnds2.v
theories/WholeAgain.v
theories/WorldFair.v
theories/SpecFair.v
theories/WholeFair.v
theories/SpecWholeFail.v
theories/WholeFail.v
theories/WholeFail2.v
theories/SpecHostBlame.v
theories/HostBlame.v
theories/PropsHostBlame.v
theories/PropsWhole.v
theories/PropsWholeEnd.v
theories/PropsWholeAgain.v
theories/PropsWholeFail.v
theories/PropsFair.v
theories/PropsWorldFair.v
theories/PropsWholeFair.v
theories/SpecWorldBlame.v
theories/LinkBlame.v
theories/LinkBlame2.v
theories/WorldBlame.v
theories/WorldBlame2.v
theories/WorldBlame3.v
theories/PropsWorldBlame.v
theories/SpecWholeBlame.v
theories/WholeBlame.v
theories/PropsWholeBlame.v
theories/SpecMatch.v
theories/MatchProofs.v
theories/PropsMatch.v
theories/SpecWaiters.v
theories/MachineWaiters.v
theories/WorldWaiters.v
theories/StartWaiters.v
theories/PropsWaiters.v
theories/Port.v
theories/SpecStick.v
theories/StickProofs.v
theories/PropsStick.v
theories/Form.v
theories/FormProofs.v
theories/FormBlame.v
theories/PropsForm.v
theories/Config.v
theories/SpecConfig.v
theories/ConfigProofs.v
theories/PropsConfig.v
theories/SpecReal.v
theories/RealProofs.v
theories/RealProofs2.v
theories/PropsReal.v
theories/SpecSpeech.v
theories/SpeechProofs.v
theories/PropsSpeech.v
theories/SpecTurn.v
theories/TurnProofs.v
theories/PropsTurn.v
theories/SpecDeliver.v
theories/DeliverProofs.v
theories/PropsDeliver.v
theories/SpecWorldDeliver.v
theories/WorldDeliver.v
theories/PropsWorldDeliver.v
theories/SpecLinkStart.v
theories/LinkStart.v
theories/LinkStart2.v
theories/LockedProofs.v
theories/PropsLinkStart.v
theories/SpecHonest.v
theories/HonestProofs.v
theories/LockedProofs2.v
theories/PropsHonest.v
theories/SpecOverlap.v
theories/PropsOverlap.v
theories/SpecDuel.v
theories/DuelProofs.v
theories/PropsDuel.v
theories/SpecSerial.v
theories/SerialProofs.v
theories/PropsSerial.v
theories/SpecChron.v
theories/ChronProofs.v
theories/PropsChron.v
theories/SpecUndisturbed.v
theories/UndisturbedProofs.v
theories/PropsUndisturbed.v
theories/ShutProofs.v
theories/PropsShut.v
theories/SpecAnswered.v
theories/AnsweredProofs.v
theories/PropsAnswered.v
