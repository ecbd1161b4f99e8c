-Q theories Verif
theories/Base.v
theories/Words.v
theories/HashAPI.v
theories/Buf.v
theories/MD.v
theories/SpecMd2.v
theories/Md2.v
theories/SpecSha0.v
theories/Sha0Block.v
theories/Sha0.v
theories/SpecSm3.v
theories/Sm3.v
theories/SpecRipemd.v
theories/Ripemd.v
theories/Merkle.v
theories/SpecTiger.v
theories/TigerTab.v
theories/Tiger.v
theories/SpecHas160.v
theories/Has160.v
theories/PropHash.v
theories/SpecCmac.v
theories/Cmac.v
theories/PropMac.v
theories/SpecGf2.v
theories/Gf2.v
theories/Rabin.v
theories/SpecChunker.v
theories/Chunker.v
theories/PropRabin.v
theories/SpecCrc16.v
theories/Crc16.v
theories/HashWrap.v
theories/PropWrap.v
theories/Refine.v
theories/SpecSip.v
theories/Sip.v
theories/SpecMurmur.v
theories/Murmur.v
theories/SpecXxh.v
theories/Xxh.v
theories/PropFast.v
theories/SpecChaskey.v
theories/Chaskey.v
theories/PropMac2.v
theories/SpecGmac.v
theories/Gmac.v
theories/PropGmac.v
theories/SpecPmac.v
theories/Pmac.v
theories/PropPmac.v
theories/SpecAscon.v
theories/Buf2.v
theories/Stream.v
theories/Ascon.v
theories/Ascon2.v
theories/PropAscon.v
theories/SpecBelt.v
theories/Belt.v
theories/PropBelt.v
theories/Buf3.v
theories/SpecSkein.v
theories/ThreefishTab.v
theories/Threefish.v
theories/Skein.v
theories/PropSkein.v
theories/KupynaTab.v
theories/SpecKupyna.v
theories/Kupyna.v
theories/PropKupyna.v
theories/StreebogTab.v
theories/SpecStreebog.v
theories/Gost3411.v
theories/Gost3411P.v
theories/StreebogP.v
theories/GostTree.v
theories/PropStreebog.v
theories/Sm3Rand.v
theories/PropSm3Rand.v
theories/Makwa.v
theories/MakwaP.v
theories/Fermat.v
theories/MakwaR.v
theories/PropMakwa.v
theories/SpecBlake.v
theories/BlakeP.v
theories/Blake256.v
theories/Blake256P.v
theories/Blake512.v
theories/Blake512P.v
theories/PropBlake.v
theories/SpecBash.v
theories/Bash.v
theories/BashP.v
theories/PropBash.v
theories/SpecK12.v
theories/K12.v
theories/KeccakP.v
theories/SpongeP.v
theories/K12P.v
theories/PropK12.v
theories/HashComp.v
theories/PropComp.v
theories/SpecEsch.v
theories/Esch.v
theories/EschP.v
theories/PropEsch.v
theories/SpecJh.v
theories/Jh.v
theories/Jh2.v
theories/JhP.v
theories/JhP2.v
theories/JhP3.v
theories/PropJh.v
theories/SpecAes.v
theories/SpecShavite.v
theories/Shavite.v
theories/Bytes.v
theories/ShaviteP.v
theories/PropShavite.v
theories/SpecMd6.v
theories/Md6.v
theories/Md6P.v
theories/PropMd6.v
theories/SpecBlake3.v
theories/Blake3.v
theories/Blake3P.v
theories/Blake3N.v
theories/Blake3T.v
theories/PropBlake3.v
theories/SpecLsh.v
theories/Lsh.v
theories/LshP.v
theories/PropLsh.v
theories/SpecCube.v
theories/Cube.v
theories/PropCube.v
theories/SpecPanama.v
theories/Panama.v
theories/Pad.v
theories/PropPanama.v
theories/SpecShabal.v
theories/Shabal.v
theories/PropShabal.v
theories/SpecGost94.v
theories/Gost94.v
theories/PropGost94.v
theories/SpecVmac.v
theories/Vmac.v
theories/PropVmac.v
theories/SpecSkeins.v
theories/SkeinsTab.v
theories/Skeins.v
theories/PropSkeins.v
theories/SpecBmw.v
theories/BmwTab.v
theories/Bmw.v
theories/PropBmw.v
theories/MDX.v
theories/GroestlTab.v
theories/SpecGroestl.v
theories/Groestl.v
theories/PropGroestl.v
theories/EchoTab.v
theories/SpecEcho.v
theories/Echo.v
theories/PropEcho.v
theories/WhirlTab.v
theories/SpecWhirl.v
theories/Whirl.v
theories/PropWhirl.v
theories/HarakaTab.v
theories/SpecHaraka.v
theories/Haraka.v
theories/PropHaraka.v
theories/SpecRadio.v
theories/Radio.v
theories/PropRadio.v
theories/SpecHaval.v
theories/Haval.v
theories/PropHavalM.v
theories/PropHaval.v
theories/SpecLyra.v
theories/Lyra.v
theories/LyraSum.v
theories/LyraP.v
theories/LyraQ.v
theories/LyraR.v
theories/PropLyra.v
theories/PropLyraSum.v
theories/SpecFsb.v
theories/Fsb.v
theories/FsbP.v
theories/PropFsb.v
theories/SknTab.v
theories/SpecSkn.v
theories/Skn.v
theories/PropSkn.v
theories/SpecLuffa.v
theories/LuffaTab.v
theories/Luffa.v
theories/PropLuffa.v
theories/SpecFugue.v
theories/FugueTab.v
theories/Fugue.v
theories/PropFugue.v
theories/SpecHamsi.v
theories/HamsiTab.v
theories/Hamsi.v
theories/PropHamsi.v
theories/SpecXxh3.v
theories/Xxh3.v
theories/PropXxh3.v
theories/SimdTab.v
theories/SpecSimd.v
theories/Simd.v
theories/PropSimd.v
theories/DeepCopy.v
theories/SpecDeep.v
theories/PropDeep.v
theories/Fluent.v
theories/PropFluent.v
theories/PropFluent2.v
theories/WrapRace.v
theories/PropWrapRace.v
theories/Hmac.v
theories/PropHmac.v
theories/FluentMem.v
theories/PropFluentMem.v
