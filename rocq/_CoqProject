-Q theories Verif
theories/Outcome.v
theories/Bytes.v
theories/Str.v
theories/EnglishTxt.v
theories/ChineseTxt.v
theories/Hash.v
theories/Ripemd.v
theories/NfkdData.v
theories/Nfkd.v
theories/Gb18030Data.v
theories/ModelBip39.v
theories/SpecBip39.v
theories/HashLemmas.v
theories/BitLemmas.v
theories/WordData.v
theories/NfkdLemmas.v
theories/StrLemmas.v
theories/WordLemmas.v
theories/Bip39Proofs.v
theories/Bip39Thms.v
theories/PropBip39.v
theories/Fermat.v
theories/Primes.v
theories/Secp.v
theories/SpecSecp.v
theories/ECGroup.v
theories/SecpField.v
theories/SecpGroup.v
theories/OrderData.v
theories/SecpOrder.v
theories/SecpProofs.v
theories/SecpSign.v
theories/Base58.v
theories/ModelBip32.v
theories/SpecBip32.v
theories/Base58Proofs.v
theories/PathThms.v
theories/PropPath.v
theories/ExtProofs.v
theories/KeyTextThms.v
theories/PropKeyText.v
theories/DeriveThms.v
theories/PropDerive.v
theories/SpecWallet.v
theories/MiscThms.v
theories/PropMisc.v
theories/MoreData.v
theories/ModelBuffers.v
theories/SpecMore.v
theories/More39Thms.v
theories/PropMore39.v
theories/ModelOrder.v
theories/SpecKeys.v
theories/SecpCount.v
theories/More32Thms.v
theories/PropMore32.v
theories/SpecHash.v
theories/HashProofs.v
theories/RipemdProofs.v
theories/HashThms.v
theories/PropHash.v
theories/SpecUnicode.v
theories/UnicodeThms.v
theories/PropUnicode.v
theories/ModelMemory.v
theories/MemoryThms.v
theories/PropMemory.v
theories/SignThms.v
theories/PropSign.v
theories/PublicThms.v
theories/PropPublic.v
theories/SpecChain.v
theories/ChainThms.v
theories/PropChain.v
theories/ModelApi.v
theories/SpecApi.v
theories/ApiThms.v
theories/PropApi.v
theories/ModelFreed.v
theories/FreedThms.v
theories/PropFreed.v
theories/ModelFormat.v
theories/FormatThms.v
theories/PropFormat.v
theories/ModelBits.v
theories/SpecSentence.v
theories/BitsThms.v
theories/PropBits.v
theories/TraditionalTxt.v
theories/FrenchTxt.v
theories/ItalianTxt.v
theories/JapaneseTxt.v
theories/KoreanTxt.v
theories/SpanishTxt.v
theories/ModelLangs.v
theories/SpecLangs.v
theories/LangData.v
theories/LangData2.v
theories/LangProofs.v
theories/LangThms.v
theories/PropLangs.v
theories/ModelBuilds.v
theories/SpecBuilds.v
theories/BuildThms.v
theories/PropBuilds.v
theories/ModelGeneric.v
theories/SpecGeneric.v
theories/GenericThms.v
theories/PropGeneric.v
theories/ModelSignBuilds.v
theories/SignBuildThms.v
theories/PropSignBuilds.v
theories/SpecFind.v
theories/FindThms.v
theories/PropFind.v
theories/SpecConst.v
theories/ConstThms.v
theories/PropConst.v
theories/ModelConstTime.v
theories/ConstTimeThms.v
theories/PropConstTime.v
theories/SpecHmacKey.v
theories/HmacKeyThms.v
theories/PropHmacKey.v
theories/FastSha.v
theories/FastShaProofs.v
theories/ChineseSeedThms.v
theories/PropChineseSeed.v
theories/FastSha256.v
theories/FastSha256Proofs.v
theories/SpecConstLangs.v
theories/ConstLangsThms.v
theories/PropConstLangs.v
theories/SpecTables.v
theories/TableThms.v
theories/PropTables.v
theories/ModelDrop.v
theories/SpecDrop.v
theories/DropThms.v
theories/PropDrop.v
theories/ModelOnce.v
theories/SpecOnce.v
theories/OnceThms.v
theories/PropOnce.v
theories/SpecKinds.v
theories/KindThms.v
theories/PropKinds.v
theories/SpecLabels.v
theories/LabelThms.v
theories/PropLabels.v
theories/SpecWalletAll.v
theories/WalletThms.v
theories/PropWallet.v
theories/ModelCost.v
theories/SpecCost.v
theories/CostThms.v
theories/PropCost.v
theories/ModelCost39.v
theories/Cost39Thms.v
theories/PropCost39.v
theories/ModelScalar.v
theories/SpecScalar.v
theories/ScalarThms.v
theories/PropScalar.v
theories/ModelScalarMul.v
theories/ScalarSteps.v
theories/ScalarMulThms.v
theories/PropScalarMul.v
theories/SpecSpelling.v
theories/SpellingThms.v
theories/PropSpelling.v
theories/SeedTextThms.v
theories/PropSeedText.v
theories/UniformThms.v
theories/PropUniform.v
theories/Vectors.v
