-Q theories Verif
theories/PyBase.v
theories/Runtime.v
theories/Codec.v
theories/CodecSpec.v
theories/Spec.v
theories/RuntimeProofs.v
theories/Enums.v
theories/EnumProofs.v
theories/Getters.v
theories/EtsiModel.v
theories/EtsiSpec.v
theories/EtsiProofs.v
theories/EtsiHeader.v
theories/CodecProofs.v
theories/HomebrewModel.v
theories/HomebrewSpec.v
theories/HomebrewProofs.v
theories/EtsiCor.v
theories/PropEtsi.v
theories/DecSpec.v
theories/DecProofs.v
theories/HyteraModel.v
theories/HyteraSpec.v
theories/HyteraRuns.v
theories/HyteraProofs.v
theories/HyteraProofs2.v
theories/HyteraProofs3.v
theories/MotorolaModel.v
theories/MotorolaSpec.v
theories/MotorolaProofs.v
theories/BitSpec.v
theories/TilesProofs.v
theories/Layouts.v
theories/GetterProofs.v
theories/HomebrewCor.v
theories/PropHomebrew.v
theories/DecAlgebra.v
theories/HyteraCor.v
theories/HyteraCor2.v
theories/PropHytera1.v
theories/HyteraCor3.v
theories/PropHytera2.v
theories/PropHytera3.v
theories/PropMotorola1.v
theories/PropMotorola2.v
theories/PyFloat.v
theories/MotorolaFloat.v
theories/PropMotorola3.v
theories/ToolsModel.v
theories/CleanProofs.v
theories/PropTools1.v
theories/AllParsers.v
theories/PropTools2.v
theories/PropGeneral.v
theories/AllSpecs.v
theories/PropGeneral2.v
theories/StableProofs.v
theories/PropGeneral3.v
theories/FieldLocal.v
theories/PropGeneral4.v
theories/LazyModel.v
theories/Ksy.v
theories/KsyDefs.v
theories/KsyTac.v
theories/KsyProofs1.v
theories/KsyProofs2.v
theories/KsyProofs3.v
theories/KsyProofs4.v
theories/KsyInst.v
theories/PropKsy.v
theories/PropLazy.v
theories/RepoTests.v
theories/IncrProofs.v
theories/PropIncr.v
theories/RelocProofs.v
theories/PropReloc.v
theories/KsySchema.v
theories/KsyTyped.v
theories/PropSchema.v
theories/InjBase.v
theories/InjCheck.v
theories/InjLevel.v
theories/InjProofs.v
theories/PropInj.v
theories/KsyWire.v
theories/WireProofs.v
theories/PropWire.v
theories/KsyGrammar.v
theories/GrammarProofs.v
theories/PropGrammar.v
theories/ImportModel.v
theories/ImportProofs.v
theories/PropImport.v
theories/SessionModel.v
theories/SessionProofs.v
theories/PropSession.v
theories/KsySize.v
theories/SizeProofs.v
theories/SizeMain.v
theories/PropSize.v
theories/ThreadModel.v
theories/ThreadProofs.v
theories/ThreadSafe.v
theories/ThreadAlone.v
theories/ThreadRace.v
theories/PropThreads.v
theories/PropErrors.v
theories/PropUpgrade.v
theories/PropIdentify.v
