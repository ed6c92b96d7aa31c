-Q theories Verif
theories/Base.v
theories/F32.v
theories/Biterator.v
theories/Huffman.v
theories/Marker.v
theories/Clamp.v
theories/Idct.v
theories/Color.v
theories/Types.v
theories/Upsampler.v
theories/Parsers.v
theories/Decode.v
theories/Images.v
theories/Validation.v
theories/Tactics.v
theories/SpecBits.v
theories/SpecReader.v
theories/BitsP.v
theories/Readers.v
theories/ReadersP.v
theories/SpecMarker.v
theories/MarkerP.v
theories/Props_Bits.v
theories/Props_Marker.v
theories/SpecHuffman.v
theories/HuffmanP.v
theories/HuffmanP2.v
theories/HuffmanP3.v
theories/Props_Huffman.v
theories/SpecBlock.v
theories/SpecTables.v
theories/BlockP.v
theories/Props_Block.v
theories/F32P.v
theories/SpecFrame.v
theories/GeomP.v
theories/SpecSegments.v
theories/ParsersP.v
theories/ParsersP2.v
theories/SpecOutcome.v
theories/SegmentsP.v
theories/Props_Segments.v
theories/SpecColor.v
theories/ColorP.v
theories/Props_Color.v
theories/YcckP.v
theories/Props_Ycck.v
theories/SpecIdct.v
theories/IdctP.v
theories/IdctP2.v
theories/SpecDct.v
theories/IdctReal.v
theories/Props_Idct.v
theories/SpecUpsample.v
theories/RowP.v
theories/UpsampleP.v
theories/UpsampleP2.v
theories/SpecImage.v
theories/ImageP.v
theories/Rayon.v
theories/RayonP.v
theories/Props_Upsample.v
theories/DebugP.v
theories/SpecPlane.v
theories/PlaneP.v
theories/SafeP.v
theories/InvP.v
theories/SpecHeader.v
theories/SpecGlobal.v
theories/GlobalP.v
theories/Samples.v
theories/Props_Global.v
theories/ExtP.v
theories/SpecStream.v
theories/StreamP.v
theories/StreamP2.v
theories/TraceP.v
theories/RowState.v
theories/RowStateP.v
theories/Props_Stream.v
theories/SpecScan.v
theories/ScanP.v
theories/RestartP.v
theories/PlacedP.v
theories/EncodeP.v
theories/SpecFile.v
theories/FileP.v
theories/Props_Scan.v
theories/SpecLimits.v
theories/CommentP.v
theories/ScansP.v
theories/CorruptP.v
theories/SpecScans.v
theories/ReuseP.v
theories/ScansP2.v
theories/PanicP.v
theories/Framed.v
theories/SpecFramed.v
theories/FramedP.v
theories/Props_Framed.v
theories/SpecPanic.v
theories/SpecProcess.v
theories/ProcessP.v
theories/Props_Process.v
theories/ProgressiveP.v
theories/Props_Progressive.v
theories/IdctSmall.v
theories/SpecSmall.v
theories/SmallP.v
theories/Props_Small.v
theories/Props_Limits.v
theories/Props_Panic.v
theories/SpecBand.v
theories/BandP.v
theories/BandScanP.v
theories/Props_Band.v
theories/SpecAnswer.v
theories/AnswerP.v
theories/AnswerP2.v
theories/AnswerP3.v
theories/EmptyP.v
theories/Props_Answer.v
theories/BombP.v
theories/SpecDamage.v
theories/DamageP.v
theories/DamageP2.v
theories/Props_Damage.v
theories/SpecPieces.v
theories/PiecesP.v
theories/Props_Pieces.v
theories/Props_Cut.v
theories/TransP.v
theories/Props_Transcode.v
theories/SpecExact.v
theories/ExactP.v
theories/Props_Exact.v
theories/SpecReuse.v
theories/ReuseP2.v
theories/Props_Reuse.v
theories/SpecCode.v
theories/CodeP.v
theories/CodeP2.v
theories/CodeP3.v
theories/CodeP4.v
theories/CodeP5.v
theories/Props_Code.v
theories/SpecFlat.v
theories/FlatP.v
theories/Props_Flat.v
theories/HeaderP.v
theories/Props_Header.v
theories/SpecEdit.v
theories/EditP.v
theories/EditP2.v
theories/Props_Edit.v
theories/SpecEncoder.v
theories/EncoderP.v
theories/SpecMosaic.v
theories/MosaicP.v
theories/EncoderP2.v
theories/Props_Encoder.v
theories/SpecFdct.v
theories/FdctP.v
theories/FdctP2.v
theories/PictureP.v
theories/Props_Picture.v
theories/SpecPlanes.v
theories/PlanesP.v
theories/PlanesP2.v
theories/Props_Planes.v
theories/SpecFlip.v
theories/FlipP.v
theories/FlipP2.v
theories/FlipP3.v
theories/Props_Flip.v
theories/SpecChannel.v
theories/ChannelP.v
theories/Props_Channel.v
theories/SpecLocal.v
theories/LocalP.v
theories/Props_Local.v
theories/SpecTranspose.v
theories/TransposeP.v
theories/Props_Transpose.v
theories/SpecWait.v
theories/WaitP.v
theories/WaitP2.v
theories/Props_Wait.v
theories/BufferP.v
theories/Props_Buffer.v
theories/FinalP.v
theories/Props_Final.v
theories/CanonP.v
theories/Props_Canon.v
theories/SpecPixels.v
theories/PixelsP.v
theories/Props_Pixels.v
theories/SpecMemory.v
theories/MemoryP.v
theories/MemoryP2.v
theories/MemoryCase.v
theories/Props_Memory.v
theories/SpecRepeat.v
theories/ReaderP.v
theories/Props_Reader.v
theories/SpecNext.v
theories/NextP.v
theories/NextP2.v
theories/NextP3.v
theories/Props_Next.v
theories/SpecNegative.v
theories/NegativeP.v
theories/Props_Negative.v
theories/SpecSum.v
theories/SumP.v
theories/Props_Sum.v
theories/SpecMalformed.v
theories/MalformedP.v
theories/Props_Malformed.v
theories/SpecMirror.v
theories/MirrorP.v
theories/Props_Mirror.v
theories/SpecNearby.v
theories/NearbyP.v
theories/Props_Nearby.v
theories/SpecMean.v
theories/MeanP.v
theories/Props_Mean.v
theories/SpecThumb.v
theories/ThumbP.v
theories/Props_Thumb.v
theories/SpecOrder.v
theories/OrderP.v
theories/Props_Order.v
theories/SpecRatio.v
theories/RatioP.v
theories/RatioP2.v
theories/Props_Ratio.v
theories/SpecSubsampled.v
theories/SubsampledP.v
theories/Props_Subsampled.v
theories/IntervalP.v
theories/Props_Interval.v
theories/SpecDefine.v
theories/DefineP.v
theories/Props_Define.v
theories/SpecSpare.v
theories/SpareP.v
theories/Props_Spare.v
theories/StrayP.v
theories/Props_Stray.v
theories/SpecAgain.v
theories/AgainP.v
theories/Props_Again.v
theories/SpecMargin.v
theories/MarginP.v
theories/Props_Margin.v
theories/SpecTrailing.v
theories/TrailingP.v
theories/Props_Trailing.v
theories/SpecMissing.v
theories/MissingP.v
theories/Props_Missing.v
theories/SpecIntact.v
theories/IntactP.v
theories/Props_Intact.v
theories/RewriteP.v
theories/Props_Rewrite.v
