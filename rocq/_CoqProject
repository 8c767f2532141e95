-Q theories Verif

theories/Py.v
theories/Utils.v
theories/Frames.v
theories/PyTime.v
theories/Application.v
theories/Aes.v
theories/Security.v
theories/State.v
theories/Connection.v
theories/PyFacts.v
theories/BitFacts.v
theories/SpecUtils.v
theories/SpecFrames.v
theories/SpecText.v
theories/SpecApplication.v
theories/SpecPdu.v
theories/SpecAes.v
theories/SpecSecurity.v
theories/SpecMeaning.v
theories/SpecConnection.v
theories/UtilsProofs.v
theories/DecodeFacts.v
theories/AesProofs.v
theories/AesStandard.v
theories/CrcProofs.v
theories/FramesProofs.v
theories/SecurityProofs.v
theories/TextProofs.v
theories/TimeProofs.v
theories/ApplicationProofs.v
theories/ConnectionProofs.v
theories/SpecLine.v
theories/LineProofs.v
theories/PropLine.v
theories/PyFloat.v
theories/ParamLang.v
theories/Parameters.v
theories/SpecParameters.v
theories/FloatProofs.v
theories/ParamProofs.v
theories/ParserProofs.v
theories/PropParameters.v
theories/PyWait.v
theories/Client.v
theories/SpecClient.v
theories/ClientProofs.v
theories/PropUtils.v
theories/PropFrames.v
theories/PropText.v
theories/PropApplication.v
theories/PropSecurity.v
theories/PropConnection.v
theories/Transport.v
theories/SpecTransport.v
theories/SpecGiven.v
theories/GivenProofs.v
theories/PropGiven.v
theories/SpecStack.v
theories/StackProofs.v
theories/TransportProofs.v
theories/PropTransport.v
theories/PropClient.v
theories/Secret.v
theories/SpecSecret.v
theories/SecretProofs.v
theories/PropSecret.v
theories/Schema.v
theories/Schemas.v
theories/SpecSchema.v
theories/SchemaProofs.v
theories/SchemaProofs2.v
theories/SchemaProofs3.v
theories/PropSchema.v
theories/PyText.v
theories/NumeralProofs.v
theories/PropNumerals.v
theories/Json.v
theories/SpecJson.v
theories/JsonProofs.v
theories/JsonProofs2.v
theories/JsonProofs3.v
theories/PropJson.v
theories/Exceptions.v
theories/SpecErrors.v
theories/ErrorProofs.v
theories/PropErrors.v
theories/Stack.v
theories/SpecSession.v
theories/SessionProofs.v
theories/SessionProofs2.v
theories/PropStack.v
theories/Log.v
theories/SpecLog.v
theories/LogProofs.v
theories/PropLog.v
theories/ClassVars.v
theories/SpecClassVars.v
theories/ClassVarsProofs.v
theories/PropClassVars.v
theories/Group.v
theories/SpecGroup.v
theories/GroupProofs.v
theories/PropGroup.v
theories/Threads.v
theories/SpecThreads.v
theories/ThreadsProofs.v
theories/PropThreads.v
theories/SpecCrc.v
theories/CrcProofs2.v
theories/PropCrc.v
theories/SpecTimed.v
theories/TimedProofs.v
theories/PropTimed.v
theories/SpecIndep.v
theories/IndepProofs.v
theories/PropIndep.v
theories/OnceProofs.v
theories/SpecNumbers.v
theories/NumberProofs.v
theories/SpecBlock.v
theories/BlockProofs.v
theories/PropBlock.v
theories/SpecDecode.v
theories/MeansProofs.v
theories/PropDecode.v
theories/SpecOutcome.v
theories/OutcomeProofs.v
theories/OutcomeProofs2.v
theories/PropOutcome.v
theories/SpecLife.v
theories/LifeProofs.v
theories/PropLife.v
theories/SpecLoad.v
theories/LoadProofs.v
theories/PropLoad.v
theories/SpecNumeral.v
theories/RoundProofs.v
theories/ReadProofs.v
theories/PropRead.v
theories/SpecTold.v
theories/ToldProofs.v
theories/PropTold.v
theories/SpecGrammar.v
theories/GrammarProofs.v
theories/PropGrammar.v
theories/SpecShortest.v
theories/ShortestProofs.v
theories/PropShortest.v
theories/SpecWhole.v
theories/WholeProofs.v
theories/PropWhole.v
theories/SpecDevice.v
theories/DeviceProofs.v
theories/PropDevice.v
theories/SpecEcho.v
theories/EchoProofs.v
theories/PropEcho.v
theories/SpecLoop.v
theories/LoopProofs.v
theories/PropLoop.v
theories/Validation.v
