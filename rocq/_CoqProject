-Q theories Verif
theories/Py.v
theories/Utf8.v
theories/IO.v
theories/Subword.v
theories/Vocab.v
theories/Arr.v
theories/Storage.v
theories/Chunks.v
theories/Embeddings.v
theories/PyProofs.v
theories/Utf8Proofs.v
theories/IOProofs.v
theories/Spec.v
theories/VocabProofs.v
theories/StorageProofs.v
theories/EmbeddingsProofs.v
theories/ReaderProofs.v
theories/TruncProofs.v
theories/FindProofs.v
theories/LoaderProofs.v
theories/ExtendProofs.v
theories/InvProofs.v
theories/StorageInv.v
theories/WriteProofs.v
theories/HeaderProofs.v
theories/VocabFacts.v
theories/TruncVocab.v
theories/ExplicitProofs.v
theories/FileWitness.v
theories/Samples.v
theories/PropFiles.v
theories/SpecVocab.v
theories/NgramProofs.v
theories/HashProofs.v
theories/IndexerProofs.v
theories/WordProofs.v
theories/SpecLookup.v
theories/ArrProofs.v
theories/ExplicitConv.v
theories/StorageGet.v
theories/ExplicitEmb.v
theories/VocabWitness.v
theories/PropVocab.v
theories/LookupProofs.v
theories/SimProofs.v
theories/SpecReal.v
theories/RealProofs.v
theories/Heap.v
theories/SpecHeap.v
theories/HeapProofs.v
theories/SetterProofs.v
theories/SpecUtf8.v
theories/Utf8More.v
theories/LookupWitness.v
theories/PropLookup.v
theories/PyText.v
theories/Compat.v
theories/PyTextProofs.v
theories/SpecCompat.v
theories/CompatProofs.v
theories/Word2vecProofs.v
theories/W2vTrunc.v
theories/TextProofs.v
theories/FasttextProofs.v
theories/FasttextReal.v
theories/CompatWitness.v
theories/PropCompat.v
theories/CompatBuilt.v
theories/Scripts.v
theories/SpecScripts.v
theories/SpecSame.v
theories/SameProofs.v
theories/ScriptsProofs.v
theories/QueryProofs.v
theories/QueryMain.v
theories/ConvertProofs.v
theories/ScriptsWitness.v
theories/PropScripts.v
theories/LossyProofs.v
theories/SpecFasttext.v
theories/FtLayout.v
theories/FtCut.v
theories/SpecText.v
theories/TextLayout.v
theories/W2vLayout.v
theories/FormatsWitness.v
theories/PropFormats.v
theories/AliasProofs.v
theories/QuantOut.v
theories/SpecSim.v
theories/SimExact.v
theories/MemoryWitness.v
theories/PropMemory.v
theories/Container.v
theories/SpecContainer.v
theories/ContainerProofs.v
theories/RewriteProofs.v
theories/MoreProofs.v
theories/PropMore.v
theories/SpecFinalfusion.v
theories/FfParse.v
theories/FfVocab.v
theories/FfStorage.v
theories/FfLoad.v
theories/FfChunks.v
theories/FfWitness.v
theories/PropFinalfusion.v
theories/SpecSubwords.v
theories/SubwordRows.v
theories/SubwordWitness.v
theories/PropSubwords.v
theories/SpecLossy.v
theories/LossyDecode.v
theories/SpecErrors.v
theories/ErrorProofs.v
theories/ErrorWitness.v
theories/PropErrors.v
theories/SpecWrite.v
theories/WriteFail.v
theories/WriteWitness.v
theories/PropWrite.v
