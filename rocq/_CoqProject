-Q theories Verif

theories/Base.v
theories/Dec.v
theories/Args.v
theories/ArgsFacts.v
theories/PropsArgs.v
theories/Field.v
theories/Cell.v
theories/Super.v
theories/Displace.v
theories/CellFacts.v
theories/SuperFacts.v
theories/DisplaceFacts.v
theories/PropsCell.v
theories/Text.v
theories/TextFacts.v
theories/TextRound.v
theories/PropsText.v
theories/PropsRead.v
theories/Check.v
theories/CheckFacts.v
theories/PropsCheck.v
theories/KPoints.v
theories/PropsKPoints.v
theories/Force.v
theories/ForceFacts.v
theories/PropsForce.v
theories/Phonon.v
theories/PhononFacts.v
theories/PropsPhonon.v
theories/PropsModes.v
theories/Sym.v
theories/Order.v
theories/SymFacts.v
theories/PropsLattice.v
theories/PropsSym.v
theories/PropsSuperSym.v
theories/PropsDisp.v
theories/PropsPoint.v
theories/SymRun.v
theories/PropsSymRun.v
theories/SymTransfer.v
theories/SymExample.v
theories/PropsNonPrim.v
theories/Thermal.v
theories/PropsThermal.v
theories/Band.v
theories/PropsBand.v
theories/Dos.v
theories/PropsTetra.v
theories/DosFacts.v
theories/PropsDos.v
theories/PropsSmear.v
theories/Output.v
theories/OutputFacts.v
theories/PropsOutput.v
theories/Weight.v
theories/PropsWeight.v
theories/Cli.v
theories/PropsCli.v
theories/PropsOptions.v
theories/Session.v
theories/PropsSession.v
theories/Frac.v
theories/PropsFrac.v
theories/Mode.v
theories/PropsMode.v
theories/Plot.v
theories/Run.v
theories/RunFacts.v
theories/PropsRun.v
theories/PropsPlot.v
theories/Click.v
theories/PropsClick.v
theories/PropsWorkflow.v
theories/Report.v
theories/ReportFacts.v
theories/PropsReport.v
theories/PropsFinish.v
theories/PropsBands.v
theories/PropsContent.v
theories/PropsLaw.v
theories/Gauss.v
theories/PropsGauss.v
