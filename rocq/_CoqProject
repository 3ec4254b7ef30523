-Q theories Verif
theories/Base.v
theories/Types.v
theories/Planes.v
theories/ImageM.v
theories/Crop.v
theories/SpecGeom.v
theories/GeomProofs.v
theories/GeomProofs2.v
theories/GeomProofs3.v
theories/SpecCrop.v
theories/CropProofs.v
theories/PropGeom.v
theories/F32.v
theories/Vector.v
theories/Simd.v
theories/SpecVector.v
theories/SimdProofs.v
theories/QuantProofs.v
theories/PropVector.v
theories/Simd16.v
theories/SpecVector16.v
theories/PropVector16.v
theories/Color.v
theories/Formats.v
theories/Visit.v
theories/Convert.v
theories/SpecColor.v
theories/SpecConvert.v
theories/SpecRun.v
theories/ReadProofs.v
theories/ColorProofs.v
theories/WriteProofs.v
theories/VisitProofs.v
theories/ConvertProofs.v
theories/PropConvert.v
theories/ExactProofs.v
theories/PropFidelity.v
theories/MultiThread.v
theories/SpecThreads.v
theories/SplitProofs.v
theories/BandProofs.v
theories/SpecExec.v
theories/ExecProofs.v
theories/ThreadProofs.v
theories/PropThreads.v
theories/SpecCopy.v
theories/Copy.v
theories/CopyProofs.v
theories/PropCopy.v
theories/SpecResize.v
theories/Resize.v
theories/ResizeProofs.v
theories/PropResize.v
theories/FloatProofs.v
theories/ColorR.v
theories/SpecReal.v
theories/AccProofs.v
theories/TargetProofs.v
theories/PropColor.v
theories/PropRound.v
theories/SpecTransfer.v
theories/PowerProofs.v
theories/PropExact.v
theories/PropTransfer.v
theories/PropNominal.v
theories/PropNeutral.v
theories/SpecStride.v
theories/StrideProofs.v
theories/PropStrides.v
theories/Math.v
theories/PolyProofs.v
theories/MathProofs.v
theories/SpecMath.v
theories/LaneProofs.v
theories/PropMath.v
theories/TransferProofs.v
theories/PropTransferAcc.v
theories/NegProofs.v
theories/RecolorProofs.v
theories/GamutProofs.v
theories/PropRecolor.v
theories/PropGamut.v
theories/GrayProofs.v
theories/PropGray.v
theories/SpecChroma.v
theories/PropChroma.v
theories/SpecIctcp.v
theories/IctcpProofs.v
theories/PropIctcp.v
theories/SpecWindow.v
theories/WindowProofs.v
theories/PropWindow.v
theories/PropTiles.v
theories/PropBackends.v
theories/MonoProofs.v
theories/PropMono.v
theories/PropLocal.v
theories/PropLayout.v
theories/PropDrift.v
theories/PropReturn.v
theories/PropBT2020.v
theories/PropBackends2.v
theories/PropIctcpAcc.v
theories/PropIctcpDec.v
theories/PropOut.v
theories/PropToPQ.v
theories/WideProofs.v
theories/PropWide.v
theories/PqProofs.v
theories/PropFromPQ.v
theories/PqEncProofs.v
theories/PropPQ.v
theories/HlgProofs.v
theories/PropHlg.v
theories/PropAbove.v
theories/PropPqYuv.v
theories/PropIctcpPq.v
theories/PropIctcpPqDec.v
theories/PropIctcpGray.v
theories/PropGrayIctcp.v
theories/PropGrayPq.v
theories/PropDepth.v
theories/PropResizeWin.v
theories/PropIctcpRecolor.v
theories/PropDeep.v
theories/PropReturnDeep.v
theories/PropCropExact.v
theories/PropWindowExact.v
theories/PropResizeExact.v
theories/PropCodes.v
theories/PropIctcpLevels.v
theories/PropIctcpIn.v
theories/PropIctcpOther.v
theories/PropIctcpHlgRecolor.v
theories/PropIctcpYuv.v
theories/PropIctcpOtherYuv.v
theories/PropIctcpApart.v
theories/PropPqLevels.v
theories/PropThereBack.v
theories/PropPqApart.v
theories/PropRepeat.v
theories/PropVia.v
theories/PropTilesLive.v
theories/PropMirror.v
theories/PropFlat.v
