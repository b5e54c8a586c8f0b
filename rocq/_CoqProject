-Q theories Verif
theories/GoStr.v
theories/GoStrFacts.v
theories/Consts.v
theories/Enums.v
theories/GoTypes.v
theories/Schema.v
theories/OptTable.v
theories/Accessors.v
theories/Uuid.v
theories/Sha1.v
theories/Base64.v
theories/Time.v
theories/JsonStr.v
theories/Json.v
theories/Float.v
theories/GoVal.v
theories/Codec.v
theories/CodecSpec.v
theories/DataTypes.v
theories/Tlp.v
theories/NumFmt.v
theories/Canon.v
theories/CanonSpec.v
theories/Ident.v
theories/IdentFacts.v
theories/Base64Facts.v
theories/TimeFacts.v
theories/JsonStrFacts.v
theories/JsonFacts.v
theories/FloatFacts.v
theories/TimeSpec.v
theories/TimeSpecFacts.v
theories/NumSpec.v
theories/NumSpecFacts.v
theories/StrSpec.v
theories/StrSpecFacts.v
theories/JsonSpec.v
theories/JsonSpecFacts.v
theories/GoValFacts.v
theories/CodecFacts.v
theories/StructFacts.v
theories/CodecRound.v
theories/ObjFacts.v
theories/TypedFacts.v
theories/StoreFacts.v
theories/DataTypesFacts.v
theories/Collection.v
theories/CollectionSpec.v
theories/CollectionFacts.v
theories/PropIdent.v
theories/AccessSpec.v
theories/PropCollectionAux.v
theories/PropCollection.v
theories/PropCodec.v
theories/FromJson.v
theories/FromJsonSpec.v
theories/FromJsonFacts.v
theories/ReadFacts.v
theories/IndepFacts.v
theories/ParseFacts.v
theories/CollectFacts.v
theories/BundleFacts.v
theories/FromJsonProps.v
theories/PropFromJson.v
theories/DocSpec.v
theories/DocFacts.v
theories/DocBundle.v
theories/PropDoc.v
theories/Options.v
theories/OptionFacts.v
theories/PropOptions.v
theories/Constructors.v
theories/ConstrSpec.v
theories/ConstrFacts.v
theories/ConstrArgs.v
theories/PropConstr.v
theories/PropConstrEnc.v
theories/IdText.v
theories/PropConstrId.v
theories/HelperTable.v
theories/Helpers.v
theories/HelperSpec.v
theories/PropHelpers.v
theories/NumFmtFacts.v
theories/CanonFacts.v
theories/CanonParse.v
theories/CanonTotal.v
theories/CanonUnique.v
theories/CanonSound.v
theories/CanonValue.v
theories/PropCanon.v
theories/Stix21.v
theories/ShapeFacts.v
theories/PropNames.v
theories/PropTime.v
theories/B64Spec.v
theories/B64SpecFacts.v
theories/ReadSpec.v
theories/ReadMeaning.v
theories/ReadExact.v
theories/PropBinary.v
theories/NameSpec.v
theories/NameFacts.v
theories/PropRead.v
theories/Getters.v
theories/PropGetters.v
theories/TextSpec.v
theories/TextFacts.v
theories/PropText.v
theories/StdEnums.v
theories/PropEnums.v
theories/Double.v
theories/DoubleFacts.v
theories/DoubleNear.v
theories/DoubleSpec.v
theories/DoubleReal.v
theories/PropDouble.v
theories/PrefixFacts.v
theories/PropPrefix.v
theories/OrderSpec.v
theories/OrderFacts.v
theories/PropOrder.v
theories/PropMerge.v
theories/SettleFacts.v
theories/SettleRead.v
theories/PropSettle.v
theories/ErrSpec.v
theories/PropErrors.v
theories/MadeSpec.v
theories/MadeFacts.v
theories/PropMade.v
theories/AnyOrder.v
theories/AnyOrderFacts.v
theories/PropAnyOrder.v
theories/Depth.v
theories/DepthSpec.v
theories/DepthFacts.v
theories/PropDepth.v
theories/ShaSpec.v
theories/ShaFacts.v
theories/PropSha.v
theories/IdSpec.v
theories/PropIdText.v
theories/IjsonSpec.v
theories/IjsonFacts.v
theories/IjsonRead.v
theories/PropIjson.v
theories/DocSettle.v
theories/PropDocSettle.v
theories/RewriteFacts.v
theories/PropRewrite.v
theories/Stale.v
theories/StaleSpec.v
theories/StaleFacts.v
theories/PropStale.v
theories/Alias.v
theories/AliasSpec.v
theories/AliasFacts.v
theories/PropAlias.v
theories/Exponent.v
theories/PropExponent.v
theories/FingerSpec.v
theories/FingerFacts.v
theories/FingerOrd.v
theories/PropFinger.v
theories/Conc.v
theories/ConcSpec.v
theories/ConcFacts.v
theories/PropConc.v
theories/PropBundle.v
theories/Share.v
theories/ShareSpec.v
theories/ShareFacts.v
theories/ShareProps.v
theories/PropShare.v
theories/OptOrderSpec.v
theories/OptOrder.v
theories/PropOptOrder.v
theories/SizeSpec.v
theories/SizeFacts.v
theories/PropSize.v
theories/JoinSpec.v
theories/JoinFacts.v
theories/PropJoin.v
theories/AppendSpec.v
theories/AppendFacts.v
theories/PropAppend.v
theories/NullFacts.v
theories/PropNull.v
theories/ObjOrderSpec.v
theories/ObjOrderFacts.v
theories/PropObjOrder.v
theories/CarrySpec.v
theories/CarryFacts.v
theories/PropCarry.v
theories/CarryDrop.v
theories/PropCarryDrop.v
theories/RepeatFacts.v
theories/PropRepeat.v
theories/CarryAlone.v
theories/PropCarryAlone.v
theories/PropNoSort.v
theories/DocOrderSpec.v
theories/PropDocOrder.v
