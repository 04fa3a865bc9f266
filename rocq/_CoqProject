-Q theories Verif
theories/Py.v
theories/Prims.v
theories/Const.v
theories/Exceptions.v
theories/Utils.v
theories/Base58.v
theories/Ripemd160.v
theories/Crypto.v
theories/Curve.v
theories/Cryptocurrencies.v
theories/Secp256k1.v
theories/P2PKHAddress.v
theories/Wif.v
theories/Bip38.v
theories/Spec.v
theories/ErrorFacts.v
theories/PyFacts.v
theories/UtilsFacts.v
theories/Base58Facts.v
theories/Primes.v
theories/ECGroup.v
theories/SpecCurve.v
theories/CurveFacts.v
theories/CurveFacts2.v
theories/SecpFacts.v
theories/SpecRipemd.v
theories/RipemdFacts.v
theories/SpecBip38.v
theories/CodecFacts.v
theories/CodecFacts2.v
theories/Bip38Facts.v
theories/Bip38Facts2.v
theories/SpecReads.v
theories/ReadFacts.v
theories/PropAlphabet.v
theories/PropBase58.v
theories/PropUtils.v
theories/SpecRecords.v
theories/SpecSession.v
theories/SpecInterop.v
theories/PropHash.v
theories/PropCurve.v
theories/Sessions.v
theories/Sha256.v
theories/Aes.v
theories/Instances.v
theories/Toy.v
theories/PropCodec.v
theories/RecordFacts.v
theories/PropEncrypt.v
theories/PropDecrypt.v
theories/PropIntermediate.v
theories/ECFacts.v
theories/PropCreate.v
theories/PropEC.v
theories/Examples.v
theories/Examples2.v
theories/PropShape.v
theories/PropSession.v
theories/PropErrors.v
theories/PropMessages.v
theories/PropInterop.v
theories/PropUnique.v
theories/PointFallback.v
theories/PropExtra.v
theories/PropExtra2.v
theories/History.v
theories/PropHistory.v
theories/Threads.v
theories/PropThreads.v
theories/LotText.v
theories/PropLotText.v
theories/DigitLimit.v
theories/PropDigits.v
theories/CoinTable.v
theories/SpecTable.v
theories/PropTable.v
theories/PropKeys.v
theories/PropArgs.v
theories/AnyArgs.v
theories/PropAnyArgs.v
theories/Examples4.v
theories/Examples3.v
theories/AnyFuncs.v
theories/Utf8Facts.v
theories/PropAnyFuncs.v
theories/Worlds.v
theories/PropWorlds.v
theories/Races.v
theories/PropRaces.v
theories/PropRecreate.v
theories/SpecOutcome.v
theories/PropOutcome.v
theories/SpecLetters.v
theories/PropLetters.v
theories/WorldFuncs.v
theories/PropDefaults.v
theories/Interrupts.v
theories/PropInterrupts.v
theories/SpecReader.v
theories/PropReader.v
theories/UnicodeTables.v
theories/SpecUnicode.v
theories/Unicode.v
theories/UnicodeFacts.v
theories/UnicodeFacts2.v
theories/PropUnicode.v
theories/Vectors.v
theories/Python314.v
theories/PropPython314.v
theories/Examples5.v
theories/Examples6.v
theories/SpecJson.v
theories/ExampleScripts.v
theories/PropScripts.v
theories/Examples7.v
theories/FloatLot.v
theories/PropFloat.v
theories/PropPoints.v
theories/PropScrypt.v
theories/PropRipemd.v
theories/PropQueries.v
theories/Inherit.v
theories/PropInherit.v
theories/Backend.v
theories/SpecBackend.v
theories/PropBackend.v
theories/RipemdChecked.v
theories/PropRipemdChecked.v
theories/SpecLibraries.v
theories/PropLibraries.v
theories/Crossing.v
theories/PropCrossing.v
theories/Copies.v
theories/PropCopies.v
theories/BytesFlag.v
theories/PropBytesFlag.v
theories/Chains.v
theories/PropChains.v
theories/PropKinds.v
theories/Buffers.v
theories/PropBuffers.v
theories/PropTypo.v
theories/Examples8.v
theories/PropSpace.v
theories/PropNest.v
theories/PropInFront.v
theories/PropLooks.v
theories/Examples9.v
theories/Examples10.v
