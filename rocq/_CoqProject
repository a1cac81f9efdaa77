-Q theories Verif
theories/Base.v
theories/BitLemmas.v
theories/Bits.v
theories/BitsProps.v
theories/Blit.v
theories/BlitProofs.v
theories/BlitProps.v
theories/Bmp.v
theories/BmpDecode.v
theories/BmpProofs.v
theories/BmpProps.v
theories/BmpRle.v
theories/BmpRows.v
theories/BmpSafe.v
theories/BmpSave.v
theories/BmpSpec.v
theories/Cache.v
theories/CacheProps.v
theories/Channels.v
theories/ChannelsProofs.v
theories/ChannelsProps.v
theories/ChannelsProps2.v
theories/ChannelsProps3.v
theories/ChannelsSpec.v
theories/Clear.v
theories/ClearProps.v
theories/Compare.v
theories/CompareProofs.v
theories/CompareProps.v
theories/CompareSpec.v
theories/ConvBuff.v
theories/ConvFloat.v
theories/ConvImg.v
theories/ConvImgChain.v
theories/ConvImgGrey.v
theories/ConvImgLum.v
theories/ConvImgProps.v
theories/ConvInt.v
theories/ConvLum.v
theories/ConvProofs.v
theories/ConvProps.v
theories/ConvProps2.v
theories/ConvSpec.v
theories/Dds.v
theories/DdsCases.v
theories/DdsLevels.v
theories/DdsLoad.v
theories/DdsPixels.v
theories/DdsProofs.v
theories/DdsProps.v
theories/DdsSpec.v
theories/Dxt.v
theories/DxtBlocks.v
theories/DxtDecode.v
theories/DxtFlip.v
theories/DxtFlipProps.v
theories/DxtInvert.v
theories/DxtProofs.v
theories/DxtProps.v
theories/DxtSpec.v
theories/Elem.v
theories/Endian.v
theories/EndianProps.v
theories/Enums.v
theories/ErrorStack.v
theories/ErrorStackProofs.v
theories/ErrorStackProps.v
theories/ErrorStackSpec.v
theories/Flip.v
theories/FlipProofs.v
theories/FlipProps.v
theories/Float.v
theories/Gif.v
theories/GifBits.v
theories/GifFrame.v
theories/GifLzw.v
theories/GifParts.v
theories/GifProofs.v
theories/GifProps.v
theories/GifSpec.v
theories/Half.v
theories/HalfProofs.v
theories/HalfProps.v
theories/HalfSpec.v
theories/Icon.v
theories/IconBits.v
theories/IconLoad.v
theories/IconPaint.v
theories/IconProofs.v
theories/IconProps.v
theories/IconSpec.v
theories/Ilu.v
theories/Ilu2.v
theories/Ilu2Props.v
theories/IluCrop.v
theories/IluFilter.v
theories/IluFilterPlane.v
theories/IluMosaic.v
theories/IluNoise.v
theories/IluProps.v
theories/IluRotate.v
theories/IluScale.v
theories/Image.v
theories/ImageProps.v
theories/ImageSpec.v
theories/Iwi.v
theories/IwiLoad.v
theories/IwiProofs.v
theories/IwiProps.v
theories/IwiSpec.v
theories/Lump.v
theories/LumpProofs.v
theories/LumpProps.v
theories/LumpSpec.v
theories/Pal.v
theories/PalJasc.v
theories/PalProps.v
theories/PalSpec.v
theories/Pcx.v
theories/PcxProofs.v
theories/PcxProps.v
theories/PcxSafe.v
theories/PcxSpec.v
theories/Pixels.v
theories/PixelsBox.v
theories/PixelsProofs.v
theories/PixelsProps.v
theories/Pnm.v
theories/PnmBits.v
theories/PnmLoad.v
theories/PnmPam.v
theories/PnmProofs.v
theories/PnmProps.v
theories/PnmSave.v
theories/PnmSpec.v
theories/PnmText.v
theories/Raw.v
theories/RawProps.v
theories/Register.v
theories/RegisterProps.v
theories/Replace.v
theories/ReplaceProps.v
theories/ReplaceSpec.v
theories/Rle.v
theories/RleProofs.v
theories/RleProps.v
theories/RleSpec.v
theories/Safe.v
theories/Scatter.v
theories/Sgi.v
theories/SgiLoad.v
theories/SgiProofs.v
theories/SgiProps.v
theories/SgiRle.v
theories/SgiSave.v
theories/SgiSpec.v
theories/Slices.v
theories/Small.v
theories/SmallDoom.v
theories/SmallProps.v
theories/SmallRle.v
theories/SmallRleProps.v
theories/SmallSpec.v
theories/SmallSun.v
theories/SmallSunProps.v
theories/SmallTex.v
theories/SmallTexProps.v
theories/Stack.v
theories/StackCopy.v
theories/StackExamples.v
theories/StackHeap.v
theories/StackHist.v
theories/StackInit.v
theories/StackNames.v
theories/StackOps.v
theories/StackProps.v
theories/StackRun.v
theories/StackSpec.v
theories/StackWf.v
theories/States.v
theories/StatesProofs.v
theories/StatesProps.v
theories/StatesProps2.v
theories/StatesSpec.v
theories/Strings.v
theories/StringsProofs.v
theories/StringsProps.v
theories/Tga.v
theories/TgaProofs.v
theories/TgaProps.v
theories/TgaRle.v
theories/TgaSafe.v
theories/TgaSpec.v
theories/Utility.v
theories/UtilityProofs.v
theories/UtilityProps.v
theories/Wbmp.v
theories/WbmpProps.v
