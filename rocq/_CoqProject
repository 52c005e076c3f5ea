-Q theories Verif
theories/Base.v
theories/LayoutModel.v
theories/LayoutSpec.v
theories/LayoutProofs.v
theories/PropLayout.v
theories/BufferModel.v
theories/BufferSpec.v
theories/ListLemmas.v
theories/BufferProofs.v
theories/BufferSteps.v
theories/BufferSteps2.v
theories/BufferSteps3.v
theories/BufferSteps4.v
theories/TraitModel.v
theories/TraitSpec.v
theories/TraitProofs.v
theories/TraitProofs2.v
theories/TraitProofs3.v
theories/BufferFacts.v
theories/BufferExamples.v
theories/PropBuffer.v
theories/PropTrait.v
theories/MoreFacts.v
theories/PropMore.v
theories/NumModel.v
theories/NumSpec.v
theories/NumProofs.v
theories/NumProofs2.v
theories/NumProofs3.v
theories/PropNum.v
theories/ConvModel.v
theories/ConvSpec.v
theories/ConvProofs.v
theories/ConvProofs2.v
theories/ConvProofs3.v
theories/ConvProofs4.v
theories/ConvProofs5.v
theories/PropConv.v
theories/MathModel.v
theories/MathSpec.v
theories/MathProofs.v
theories/MathProofs2.v
theories/MathExamples.v
theories/PropMath.v
theories/LasModel.v
theories/LasSpec.v
theories/LasProofs.v
theories/LasProofs2.v
theories/PropLas.v
theories/LasIoModel.v
theories/LasIoSpec.v
theories/LasIoProofs.v
theories/LasIoProofs2.v
theories/LasIoProofs3.v
theories/LasIoProofs4.v
theories/LasIoProofs5.v
theories/LasIoProofs6.v
theories/LasIoProofs7.v
theories/LasIoProofs8.v
theories/LasIoProofs9.v
theories/LasIoProofs10.v
theories/LasIoProofs11.v
theories/LasIoProofs12.v
theories/LasIoProofs13.v
theories/WriteAllExamples.v
theories/PropWriteAll.v
theories/PropLasIo.v
theories/AsciiModel.v
theories/AsciiSpec.v
theories/AsciiProofs.v
theories/AsciiProofs2.v
theories/AsciiProofs3.v
theories/AsciiProofs4.v
theories/AsciiProofs5.v
theories/AsciiProofs6.v
theories/AsciiProofs7.v
theories/AsciiProofs8.v
theories/PropAscii.v
theories/PntsModel.v
theories/PntsSpec.v
theories/PntsProofs.v
theories/PntsProofs2.v
theories/PntsProofs3.v
theories/PntsProofs4.v
theories/PntsProofs5.v
theories/PntsProofs6.v
theories/PntsProofs7.v
theories/PntsProofs8.v
theories/PntsProofs9.v
theories/PntsProofs10.v
theories/PntsProofs11.v
theories/PntsProofs12.v
theories/PntsExamples.v
theories/PropPnts.v
theories/SegModel.v
theories/SegSpec.v
theories/SegProofs.v
theories/SegProofs2.v
theories/SegReal.v
theories/SegExamples.v
theories/PropSeg.v
theories/FloatReal.v
theories/UntypedModel.v
theories/VoxModel.v
theories/VoxSpec.v
theories/F64Real.v
theories/VoxProofs.v
theories/VoxProofs2.v
theories/VoxProofs3.v
theories/VoxProofs4.v
theories/VoxProofs5.v
theories/VoxExamples.v
theories/VoxProofs6.v
theories/PropVox.v
theories/HullModel.v
theories/HullSpec.v
theories/HullProofs.v
theories/HullProofs2.v
theories/HullReal.v
theories/HullPlanar.v
theories/HullExamples.v
theories/PropHull.v
theories/UntypedProofs.v
theories/PropUntyped.v
theories/NormModel.v
theories/NormSpec.v
theories/NormProofs.v
theories/NormProofs2.v
theories/NormFloat.v
theories/NormProofs3.v
theories/NormProofs4.v
theories/NormExamples.v
theories/PropNorm.v
theories/InfoModel.v
theories/InfoProofs.v
theories/InfoProofs2.v
theories/PropInfo.v
theories/LasGridSpec.v
theories/LasFloat.v
theories/LasFloat2.v
theories/LasGridExamples.v
theories/PropLasGrid.v
theories/ViewsModel.v
theories/ViewsSpec.v
theories/ViewsProofs.v
theories/ReprojModel.v
theories/ReprojProofs.v
theories/ViewsExamples.v
theories/PropViews.v
theories/TilesModel.v
theories/TilesSpec.v
theories/TilesProofs.v
theories/TilesProofs2.v
theories/TilesProofs3.v
theories/TilesProofs4.v
theories/TilesProofs5.v
theories/TilesProofs6.v
theories/TilesExamples.v
theories/PropTiles.v
theories/TilesBoxSpec.v
theories/TilesBoxProofs.v
theories/PropTilesBox.v
theories/LasMetaModel.v
theories/Utf8Spec.v
theories/Utf8Proofs.v
theories/LasMetaSpec.v
theories/LasMetaProofs.v
theories/LasMetaExamples.v
theories/PropLasMeta.v
theories/LasCutModel.v
theories/LasCutSpec.v
theories/LasCutProofs.v
theories/PropLasCut.v
theories/LasCrashModel.v
theories/LasCrashSpec.v
theories/LasCrashProofs.v
theories/PropLasCrash.v
theories/LasShow.v
theories/PropLasShow.v
theories/AsciiErrModel.v
theories/AsciiErrSpec.v
theories/AsciiErrProofs.v
theories/AsciiErrExamples.v
theories/PropAsciiErr.v
theories/VlrSpec.v
theories/VlrProofs.v
theories/PropVlr.v
theories/AsciiFloatSpec.v
theories/AsciiFloat.v
theories/AsciiFloat2.v
theories/AsciiFloat3.v
theories/AsciiFloatExamples.v
theories/PropAsciiFloat.v
theories/RefModel.v
theories/RefSpec.v
theories/RefProofs.v
theories/RefExamples.v
theories/PropRef.v
theories/DeriveModel.v
theories/DeriveSpec.v
theories/DeriveProofs.v
theories/DeriveExamples.v
theories/PropDerive.v
theories/LasFileModel.v
theories/LasFileSpec.v
theories/LasFileProofs.v
theories/LasFileProofs2.v
theories/LasFileExamples.v
theories/PropLasFile.v
theories/CubicSpec.v
theories/CubicProofs.v
theories/CubicExamples.v
theories/PropCubic.v
theories/HullFloatSpec.v
theories/HullFloat.v
theories/HullFloat2.v
theories/HullFloatExamples.v
theories/PropHullFloat.v
theories/SegFloatSpec.v
theories/SegFloat.v
theories/SegFloat2.v
theories/SegFloat3.v
theories/SegFloat4.v
theories/SegFloatExamples.v
theories/PropSegFloat.v
theories/PntsCrashModel.v
theories/PntsCrashSpec.v
theories/PntsCrashProofs.v
theories/PropPntsCrash.v
theories/PathModel.v
theories/PathSpec.v
theories/PathProofs.v
theories/PathExamples.v
theories/PropPath.v
theories/GenericModel.v
theories/GenericSpec.v
theories/GenericProofs.v
theories/GenericExamples.v
theories/PropGeneric.v
theories/GenericWriteModel.v
theories/GenericWriteSpec.v
theories/GenericWriteProofs.v
theories/GenericWriteExamples.v
theories/PropGenericWrite.v
