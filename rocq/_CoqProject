-Q theories Verif
theories/Base.v
theories/Bytes.v
theories/Utf8.v
theories/RBuf.v
theories/WBuf.v
theories/Codec.v
theories/ObjAny.v
theories/Values.v
theories/Key.v
theories/Header.v
theories/Obj.v
theories/Streamer.v
theories/RObj.v
theories/TreeObj.v
theories/Decomp.v
theories/File.v
theories/FileLay.v
theories/FileOps.v
theories/FileMono.v
theories/FileClose.v
theories/FileOpen.v
theories/FileFinal.v
theories/Names.v
theories/Column.v
theories/ColRead.v
theories/ColOps.v
theories/TreeOps.v
theories/SlotFacts.v
theories/ColFwd.v
theories/TreeFwd.v
theories/ColBack.v
theories/ColType.v
theories/TreeFinal.v
theories/WLe.v
theories/SpecName.v
theories/TreeWrite.v
theories/TreeSession.v
theories/SessFwd.v
theories/StreamerDb.v
theories/RoomFwd.v
theories/Spec.v
theories/CodecFacts.v
theories/Dates.v
theories/PropCodec.v
theories/SpecTree.v
theories/SessFacts.v
theories/Prog.v
theories/FileFacts.v
theories/Refused.v
theories/Sample.v
theories/SampleOpen.v
theories/PropFile.v
theories/TreeFacts.v
theories/PropTree.v
theories/SliceRead.v
theories/SpecRead.v
theories/ZipFacts.v
theories/PropRead.v
theories/Derive.v
theories/SpecDerive.v
theories/DeriveFacts.v
theories/DeriveOut.v
theories/DeriveWrite.v
theories/PropDerive.v
theories/Term.v
theories/TermRead.v
theories/TermCol.v
theories/TermZip.v
theories/TermIter.v
theories/SpecEnds.v
theories/PropEnds.v
theories/SpecPack.v
theories/PackFacts.v
theories/PropPack.v
theories/Coll.v
theories/SpecColl.v
theories/CollFacts.v
theories/PropColl.v
theories/Interp.v
theories/NameFacts.v
theories/PropNames.v
theories/SpecRoom.v
theories/RoomFacts.v
theories/PropRoom.v
theories/PropCycle.v
theories/NoErr.v
theories/SpecTry.v
theories/TryFacts.v
theories/PropTry.v
theories/Dump.v
theories/SpecDump.v
theories/PropDump.v
theories/SpecCrash.v
theories/CrashFacts.v
theories/PropCrash.v
theories/SpecDesc.v
theories/DescFacts.v
theories/DescTree.v
theories/DescMono.v
theories/DescSess.v
theories/DescFile.v
theories/PropDesc.v
theories/SpecDamage.v
theories/DamageFacts.v
theories/SpecBasket.v
theories/BasketFacts.v
theories/PartFacts.v
theories/DamageFile.v
theories/Lazy.v
theories/LazyFacts.v
theories/PropDamage.v
theories/World.v
theories/SpecWorld.v
theories/WorldFacts.v
theories/PropWorld.v
theories/AfterFacts.v
theories/PropAfter.v
theories/PropTypes.v
theories/SpecTitle.v
theories/PropTitle.v
theories/BasketFile.v
theories/PropBasket.v
theories/PropCount.v
theories/SpecSame.v
theories/SameFacts.v
theories/SameFile.v
theories/PropSame.v
theories/SpecSize.v
theories/SizeFacts.v
theories/PropSize.v
theories/Assumptions.v
