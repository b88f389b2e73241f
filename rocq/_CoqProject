-Q theories Verif
theories/Model/Base.v
theories/Model/Float64.v
theories/Model/Config.v
theories/Model/IndexValue.v
theories/Model/Fifo.v
theories/Model/Bucket.v
theories/Model/Lsh.v
theories/Model/Wta.v
theories/Model/Densify.v
theories/Model/Dwta.v
theories/Model/GoHeap.v
theories/Model/Minhash.v
theories/Model/Srp.v
theories/Spec/FifoSpec.v
theories/Spec/LshSpec.v
theories/Proofs/BaseProofs.v
theories/Proofs/FloatReal.v
theories/Proofs/FifoProofs.v
theories/Proofs/BucketProofs.v
theories/Proofs/LshProofs.v
theories/Properties/FifoProps.v
theories/Properties/BucketProps.v
theories/Properties/LshProps.v
theories/Spec/HashSpec.v
theories/Proofs/FloatOrder.v
theories/Proofs/WtaProofs.v
theories/Properties/WtaProps.v
theories/Proofs/DensifyProofs.v
theories/Proofs/DwtaProofs.v
theories/Properties/DwtaProps.v
theories/Proofs/HeapProofs.v
theories/Proofs/MinhashProofs.v
theories/Properties/MinhashProps.v
theories/Spec/SrpSpec.v
theories/Proofs/SrpProofs.v
theories/Properties/SrpProps.v
theories/Model/Bufio.v
theories/Model/Xcrepo.v
theories/Spec/XcSpec.v
theories/Proofs/BufioProofs.v
theories/Proofs/XcProofs.v
theories/Properties/XcProps.v
theories/Model/Mem.v
theories/Model/Node.v
theories/Spec/NodeSpec.v
theories/Proofs/MemProofs.v
theories/Proofs/NodeProofs.v
theories/Spec/NodeHist.v
theories/Proofs/NodeOps.v
theories/Proofs/NodeCow.v
theories/Spec/BackpropSpec.v
theories/Proofs/BackpropProofs.v
theories/Proofs/NodeMore.v
theories/Properties/NodeProps.v
theories/Model/Layer.v
theories/Model/Network.v
theories/Model/Main.v
theories/Spec/LayerSpec.v
theories/Proofs/SelectProofs.v
theories/Proofs/Select3.v
theories/Proofs/Pres.v
theories/Proofs/LayerProofs.v
theories/Proofs/LayerModes.v
theories/Proofs/ChosenProofs.v
theories/Proofs/LayerMore.v
theories/Properties/LayerProps.v
theories/Spec/NetSpec.v
theories/Proofs/NetFrame.v
theories/Spec/NetRef.v
theories/Spec/LearnSpec.v
theories/Spec/InferSpec.v
theories/Proofs/NetQuery.v
theories/Proofs/NetTrain.v
theories/Proofs/NetNew.v
theories/Proofs/NetLive.v
theories/Proofs/NetInfer.v
theories/Spec/TrainSpec.v
theories/Spec/ShapeSpec.v
theories/Spec/RetrieveSpec.v
theories/Proofs/NetGrad.v
theories/Proofs/NetBack.v
theories/Proofs/NetStep.v
theories/Proofs/NetUpdate.v
theories/Proofs/NetShape.v
theories/Proofs/NetTables.v
theories/Proofs/NetCalls.v
theories/Proofs/RetrieveProofs.v
theories/Proofs/FloatSub.v
theories/Proofs/SoftmaxProofs.v
theories/Properties/NetProps.v
theories/Properties/TrainProps.v
theories/Properties/RetrieveProps.v
theories/Spec/SafeSpec.v
theories/Proofs/NetRng.v
theories/Proofs/Sampling.v
theories/Proofs/NetTotal.v
theories/Proofs/NetSafe.v
theories/Properties/SafeProps.v
theories/Spec/MainSpec.v
theories/Spec/AccuracySpec.v
theories/Proofs/MainProofs.v
theories/Proofs/AccuracyProofs.v
theories/Properties/MainProps.v
theories/Spec/ProgramSpec.v
theories/Proofs/ProgramProofs.v
theories/Properties/ProgramProps.v
theories/Spec/AdamSpec.v
theories/Spec/BatchSpec.v
theories/Proofs/NetInvariant.v
theories/Proofs/BatchProofs.v
theories/Proofs/AdamProofs.v
theories/Properties/BatchProps.v
theories/Spec/DenseSpec.v
theories/Proofs/DenseProofs.v
theories/Properties/DenseProps.v
theories/Spec/RangeSpec.v
theories/Proofs/FloatRange.v
theories/Proofs/RangeProofs.v
theories/Properties/RangeProps.v
theories/Properties/BoundProps.v
theories/Model/Load.v
theories/Spec/ConfigSpec.v
theories/Proofs/ConfigFields.v
theories/Proofs/ConfigProofs.v
theories/Proofs/ConfigRun.v
theories/Properties/ConfigProps.v
theories/Spec/OrderSpec.v
theories/Proofs/OrderProofs.v
theories/Properties/OrderProps.v
theories/Spec/GradSpec.v
theories/Proofs/GradReal.v
theories/Proofs/GradFloat.v
theories/Properties/GradProps.v
theories/Spec/RoundSpec.v
theories/Spec/ScaleSpec.v
theories/Spec/BoundSpec.v
theories/Proofs/RoundProofs.v
theories/Proofs/ScaleProofs.v
theories/Proofs/ScaleFloat.v
theories/Proofs/BoundFloat.v
theories/Proofs/BoundPass.v
theories/Proofs/BoundProofs.v
theories/Properties/RoundProps.v
theories/Properties/ScaleProps.v
theories/Spec/ShuffleSpec.v
theories/Proofs/ShuffleProofs.v
theories/Properties/ShuffleProps.v
theories/Spec/SystemSpec.v
theories/Proofs/SystemProofs.v
theories/Properties/SystemProps.v
theories/Spec/ScoreSpec.v
theories/Proofs/ScoreProofs.v
theories/Proofs/ScoreExp.v
theories/Properties/ScoreProps.v
theories/Spec/DescentSpec.v
theories/Proofs/DescentProofs.v
theories/Proofs/DescentSteps.v
theories/Proofs/DescentBad.v
theories/Proofs/DescentCode.v
theories/Properties/DescentProps.v
theories/Conformance/RepoTests.v
theories/Spec/BiasSpec.v
theories/Proofs/BiasCount.v
theories/Proofs/BiasOrders.v
theories/Proofs/BiasSets.v
theories/Proofs/BiasTables.v
theories/Proofs/BiasProofs.v
theories/Properties/BiasProps.v
theories/Proofs/ProbeProofs.v
theories/Properties/ProbeProps.v
theories/Spec/SignSpec.v
theories/Proofs/SignProofs.v
theories/Properties/SignProps.v
theories/Spec/FillSpec.v
theories/Proofs/FillProofs.v
theories/Properties/FillProps.v
theories/Spec/DrawSpec.v
theories/Proofs/DrawProofs.v
theories/Properties/DrawProps.v
theories/Spec/LocalSpec.v
theories/Proofs/LocalProofs.v
theories/Properties/LocalProps.v
theories/Spec/WorkSpec.v
theories/Proofs/WorkProofs.v
theories/Properties/WorkProps.v
theories/Spec/FairSpec.v
theories/Proofs/FairProofs.v
theories/Properties/FairProps.v
theories/Spec/ReportSpec.v
theories/Proofs/ReportProofs.v
theories/Properties/ReportProps.v
theories/Spec/RepeatSpec.v
theories/Proofs/RepeatProofs.v
theories/Properties/RepeatProps.v
theories/Spec/EmptySpec.v
theories/Spec/DenseTrainSpec.v
theories/Proofs/EmptyProofs.v
theories/Proofs/DenseTrainProofs.v
theories/Properties/EmptyProps.v
theories/Properties/DenseTrainProps.v
