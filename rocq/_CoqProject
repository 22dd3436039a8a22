-Q theories Verif
theories/Arch/Auto.v
theories/Arch/AutoProofs.v
theories/Arch/AutoSpec.v
theories/Arch/Choose.v
theories/Arch/ChooseProofs.v
theories/Arch/Conversion.v
theories/Arch/ConversionProofs.v
theories/Arch/ConversionSpec.v
theories/Arch/Data.v
theories/Arch/Model.v
theories/Arch/Proofs.v
theories/Arch/Props.v
theories/Arch/PropsAuto.v
theories/Arch/PropsChoose.v
theories/Arch/PropsConversion.v
theories/Arch/ShippedProofs.v
theories/Arch/Spec.v
theories/Arch/Table.v
theories/Base/LinAlg.v
theories/Base/Py.v
theories/Base/PyFacts.v
theories/Base/PyStr.v
theories/Base/RList.v
theories/Common/Lora.v
theories/Common/LoraProofs.v
theories/Common/Model.v
theories/Common/Proofs.v
theories/Common/Props.v
theories/Common/PropsLora.v
theories/Common/Spec.v
theories/Config/Model.v
theories/Config/Proofs.v
theories/Config/Props.v
theories/Config/Spec.v
theories/Devices/Model.v
theories/Devices/OptionProofs.v
theories/Devices/Proofs.v
theories/Devices/Props.v
theories/Devices/Run.v
theories/Devices/RunProofs.v
theories/Devices/RunSpec.v
theories/Devices/Spec.v
theories/Devices/StageProofs.v
theories/Evo/Evaluate.v
theories/Evo/Examples.v
theories/Evo/InMemory.v
theories/Evo/Model.v
theories/Evo/Proofs.v
theories/Evo/PropsEvaluate.v
theories/Evo/PropsGenome.v
theories/Evo/PropsGenomeMore.v
theories/Evo/PropsInMemory.v
theories/Evo/PropsStrategy.v
theories/Evo/Spec.v
theories/Evo/Strategy.v
theories/Evo/StrategyProofs.v
theories/ExtractLora/Model.v
theories/ExtractLora/PlanProofs.v
theories/ExtractLora/Proofs.v
theories/ExtractLora/Props.v
theories/ExtractLora/PropsWhole.v
theories/ExtractLora/Spec.v
theories/ExtractLora/Whole.v
theories/FillMissing/Model.v
theories/FillMissing/Proofs.v
theories/FillMissing/Props.v
theories/FillMissing/Spec.v
theories/Finish/Model.v
theories/Finish/Proofs.v
theories/Finish/Props.v
theories/Finish/Spec.v
theories/Graph/Examples.v
theories/Graph/ExecProofs.v
theories/Graph/Model.v
theories/Graph/Proofs.v
theories/Graph/Props.v
theories/Graph/ScheduleProofs.v
theories/Graph/Spec.v
theories/Graph/TopoProofs.v
theories/Graph/UniverseProofs.v
theories/IO/DirProofs.v
theories/IO/FsProofs.v
theories/IO/LoaderProofs.v
theories/IO/Model.v
theories/IO/Props.v
theories/IO/RunProofs.v
theories/IO/Spec.v
theories/IO/WriterProofs.v
theories/Lazy/Model.v
theories/Lazy/Proofs.v
theories/Lazy/Props.v
theories/Lazy/Spec.v
theories/Methods/Dispatch.v
theories/Methods/DispatchSpec.v
theories/Methods/Easy.v
theories/Methods/Float.v
theories/Methods/FloatProofs.v
theories/Methods/GtaProofs.v
theories/Methods/LinearProofs.v
theories/Methods/Model.v
theories/Methods/More.v
theories/Methods/PropsDispatch.v
theories/Methods/PropsEasy.v
theories/Methods/PropsFloat.v
theories/Methods/PropsFusion.v
theories/Methods/PropsGta.v
theories/Methods/PropsKarcher.v
theories/Methods/PropsLinear.v
theories/Methods/PropsMultislerp.v
theories/Methods/PropsNuslerp.v
theories/Methods/PropsRam.v
theories/Methods/PropsSce.v
theories/Methods/PropsSignature.v
theories/Methods/PropsSlerp.v
theories/Methods/PropsStock.v
theories/Methods/Signature.v
theories/Methods/SignatureSpec.v
theories/Methods/Spec.v
theories/Moe/Examples.v
theories/Moe/FusedProofs.v
theories/Moe/Gates.v
theories/Moe/Model.v
theories/Moe/NameProofs.v
theories/Moe/OutConfig.v
theories/Moe/Props.v
theories/Moe/PropsGates.v
theories/Moe/PropsOutConfig.v
theories/Moe/PropsQwen.v
theories/Moe/PropsWhole.v
theories/Moe/Spec.v
theories/Moe/SplitProofs.v
theories/Moe/Whole.v
theories/MultiGPU/Examples.v
theories/MultiGPU/Model.v
theories/MultiGPU/Proofs.v
theories/MultiGPU/Props.v
theories/MultiGPU/RunProofs.v
theories/MultiGPU/Spec.v
theories/Multimerge/DfsProofs.v
theories/Multimerge/LazyProofs.v
theories/Multimerge/Model.v
theories/Multimerge/PatchProofs.v
theories/Multimerge/Props.v
theories/Multimerge/Spec.v
theories/Options/Model.v
theories/Options/Proofs.v
theories/Options/Props.v
theories/Options/Spec.v
theories/Parallel/LostProofs.v
theories/Parallel/Model.v
theories/Parallel/Proofs.v
theories/Parallel/Props.v
theories/Parallel/RunProofs.v
theories/Plan/Model.v
theories/Plan/ModuleProofs.v
theories/Plan/NormProofs.v
theories/Plan/Proofs.v
theories/Plan/Props.v
theories/Plan/Spec.v
theories/RawPytorch/Model.v
theories/RawPytorch/Proofs.v
theories/RawPytorch/Props.v
theories/RawPytorch/PropsWhole.v
theories/RawPytorch/Spec.v
theories/RawPytorch/Whole.v
theories/Recorded/Model.v
theories/Recorded/Proofs.v
theories/Recorded/Props.v
theories/Recorded/PropsShipped.v
theories/Recorded/Spec.v
theories/Run/ActProofs.v
theories/Run/Cache.v
theories/Run/CacheSpec.v
theories/Run/Embed.v
theories/Run/EmbedProofs.v
theories/Run/Model.v
theories/Run/PlanProofs.v
theories/Run/Proofs.v
theories/Run/Props.v
theories/Run/PropsCache.v
theories/Run/PropsMethods.v
theories/Run/PropsStages.v
theories/Run/PropsTokens.v
theories/Run/PropsWhole.v
theories/Run/Spec.v
theories/Run/Stages.v
theories/Scripts/Model.v
theories/Scripts/Props.v
theories/Sparsify/FloatProofs.v
theories/Sparsify/Model.v
theories/Sparsify/Proofs.v
theories/Sparsify/Props.v
theories/Sparsify/PropsDare.v
theories/Sparsify/Spec.v
theories/TokenSurgeon/Approx.v
theories/TokenSurgeon/ApproxInst.v
theories/TokenSurgeon/ApproxProofs.v
theories/TokenSurgeon/ApproxSpec.v
theories/TokenSurgeon/Basis.v
theories/TokenSurgeon/BasisSpec.v
theories/TokenSurgeon/LeastSquares.v
theories/TokenSurgeon/Magikarp.v
theories/TokenSurgeon/MagikarpProofs.v
theories/TokenSurgeon/MagikarpSpec.v
theories/TokenSurgeon/MatchProofs.v
theories/TokenSurgeon/Model.v
theories/TokenSurgeon/OmpProofs.v
theories/TokenSurgeon/Proofs.v
theories/TokenSurgeon/Props.v
theories/TokenSurgeon/PropsApprox.v
theories/TokenSurgeon/PropsBasis.v
theories/TokenSurgeon/PropsMagikarp.v
theories/TokenSurgeon/PropsOmp.v
theories/TokenSurgeon/PropsPca.v
theories/TokenSurgeon/PropsPursuit.v
theories/TokenSurgeon/PropsRope.v
theories/TokenSurgeon/PropsTransplant.v
theories/TokenSurgeon/PropsWeights.v
theories/TokenSurgeon/PropsWhole.v
theories/TokenSurgeon/Rope.v
theories/TokenSurgeon/RopeProofs.v
theories/TokenSurgeon/Spec.v
theories/TokenSurgeon/Transplant.v
theories/TokenSurgeon/TransplantProofs.v
theories/TokenSurgeon/TransplantSpec.v
theories/TokenSurgeon/Weights.v
theories/TokenSurgeon/Whole.v
theories/Tokenizer/EmbedProofs.v
theories/Tokenizer/Model.v
theories/Tokenizer/Proofs.v
theories/Tokenizer/PropsEmbed.v
theories/Tokenizer/PropsVocab.v
theories/Tokenizer/Spec.v
theories/Yaml/Model.v
theories/Yaml/PlanProofs.v
theories/Yaml/Proofs.v
theories/Yaml/Props.v
theories/Yaml/RoundTrip.v
theories/Yaml/Spec.v
theories/Yaml/Stable.v
