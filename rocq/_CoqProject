-Q theories Verif
theories/AccModel.v
theories/AccProofs.v
theories/AddressModel.v
theories/AddressProofs.v
theories/AddressProofs2.v
theories/AddressProofs3.v
theories/AddressProofs4.v
theories/AddressProps.v
theories/AddressSpec.v
theories/AeadModel.v
theories/AeadProofs.v
theories/AeadProps.v
theories/AeadSpec.v
theories/AesModel.v
theories/AesProps.v
theories/AesSpec.v
theories/AmountModel.v
theories/AmountProps.v
theories/AmountSpec.v
theories/AuthModel.v
theories/AuthProps.v
theories/AuthSpec.v
theories/Base.v
theories/BatchModel.v
theories/BatchProofs.v
theories/BatchProofs2.v
theories/BatchProofs3.v
theories/BatchProofs4.v
theories/BatchProps.v
theories/BatchProps2.v
theories/BatchSpec.v
theories/BechField.v
theories/BechProofs.v
theories/BechProofs2.v
theories/BechProofs3.v
theories/BinModel.v
theories/BinProps.v
theories/BinSpec.v
theories/BitProofs.v
theories/BitStreamModel.v
theories/BitStreamProofs.v
theories/BitStreamProofs2.v
theories/BitStreamProps.v
theories/BitStreamSpec.v
theories/BlockExamples.v
theories/BlockModel.v
theories/BlockProofs.v
theories/BlockProofs2.v
theories/BlockProofs3.v
theories/BlockProps.v
theories/BlockProps2.v
theories/BlockSpec.v
theories/Bytes.v
theories/ChachaModel.v
theories/ChachaProofs.v
theories/ChachaProofs2.v
theories/ChachaProps.v
theories/ChachaSpec.v
theories/ChainModel.v
theories/ChainProofs.v
theories/ChainProofs2.v
theories/ChainProofs3.v
theories/ChainProofs4.v
theories/ChainProps.v
theories/ChainSpec.v
theories/CoinModel.v
theories/CoinProps.v
theories/CollModel.v
theories/CollProps.v
theories/CollSpec.v
theories/CompactModel.v
theories/CompactProofs.v
theories/CompactProps.v
theories/CompactSpec.v
theories/ConnectModel.v
theories/ConnectProofs.v
theories/ConnectProofs2.v
theories/ConnectProps.v
theories/ConnectProps2.v
theories/ConnectSpec.v
theories/DerModel.v
theories/DerProofs.v
theories/DerProps.v
theories/DerSpec.v
theories/EcModel.v
theories/EkModel.v
theories/EkProps.v
theories/ElectrumModel.v
theories/ElectrumProps.v
theories/EndianModel.v
theories/EndianProofs.v
theories/EseedModel.v
theories/EseedProofs.v
theories/EseedProps.v
theories/EseedSpec.v
theories/FilterModel.v
theories/FilterProofs.v
theories/FilterProofs2.v
theories/FilterProofs3.v
theories/FilterProps.v
theories/GolombModel.v
theories/GolombProofs.v
theories/GolombProps.v
theories/GolombSpec.v
theories/HdModel.v
theories/HdProofs.v
theories/HdProps.v
theories/HdSpec.v
theories/HeaderProps.v
theories/InterpEarly.v
theories/InterpElem.v
theories/InterpEnv.v
theories/InterpFrame.v
theories/InterpModel.v
theories/InterpProps.v
theories/InterpProps2.v
theories/InterpRun.v
theories/InterpSim.v
theories/InterpSim2.v
theories/InterpSim3.v
theories/InterpSim4.v
theories/InterpSim5.v
theories/InterpSpec.v
theories/InterpTrace.v
theories/KdfModel.v
theories/KdfProofs.v
theories/KdfProofs2.v
theories/KdfProps.v
theories/KdfSpec.v
theories/LCalc.v
theories/LineProofs.v
theories/MathModel.v
theories/MathProofs.v
theories/MathProofs2.v
theories/MathProps.v
theories/MathSpec.v
theories/MessageModel.v
theories/MessageProps.v
theories/MessageSpec.v
theories/MnemonicModel.v
theories/MnemonicProofs.v
theories/MnemonicProps.v
theories/MnemonicSpec.v
theories/NumberModel.v
theories/NumberProofs.v
theories/NumberProps.v
theories/NumberSpec.v
theories/OpModel.v
theories/OpProofs.v
theories/OpProofs2.v
theories/OpProofs3.v
theories/OpProps.v
theories/OpSpec.v
theories/OrderPrime.v
theories/PatternModel.v
theories/PatternProps.v
theories/PatternProps2.v
theories/PolyModel.v
theories/PolyProofs.v
theories/PolyProofs2.v
theories/PolyProofs3.v
theories/PolyProofs4.v
theories/PolyProps.v
theories/PolySpec.v
theories/PrimeProofs.v
theories/PropsModel.v
theories/PropsProps.v
theories/PropsProps2.v
theories/PropsSpec.v
theories/RCalc.v
theories/RadixModel.v
theories/RadixProofs.v
theories/RadixProofs2.v
theories/RadixProofs3.v
theories/RadixProofs4.v
theories/RadixProps.v
theories/RadixSpec.v
theories/RingModel.v
theories/RingProps.v
theories/RingSpec.v
theories/RmdModel.v
theories/RmdProofs.v
theories/RmdProofs2.v
theories/RmdProps.v
theories/RmdSpec.v
theories/ScryptModel.v
theories/ScryptProofs.v
theories/ScryptProps.v
theories/ScryptSpec.v
theories/ShaModel.v
theories/ShaProofs.v
theories/ShaProofs10.v
theories/ShaProofs2.v
theories/ShaProofs3.v
theories/ShaProofs4.v
theories/ShaProofs5.v
theories/ShaProofs6.v
theories/ShaProofs7.v
theories/ShaProofs8.v
theories/ShaProofs9.v
theories/ShaProps.v
theories/ShaSpec.v
theories/SighashModel.v
theories/SighashProofs.v
theories/SighashProofs2.v
theories/SighashProps.v
theories/SighashProps2.v
theories/SighashSpec.v
theories/SigopProofs.v
theories/SigopProps.v
theories/SigopSpec.v
theories/SipProps.v
theories/SipSpec.v
theories/StateModel.v
theories/StateProofs.v
theories/StateProofs2.v
theories/StateProofs3.v
theories/StateProps.v
theories/StateProps2.v
theories/StateSpec.v
theories/StealthModel.v
theories/StealthProps.v
theories/StealthProps2.v
theories/StealthSpec.v
theories/StreamModel.v
theories/StreamProofs.v
theories/StreamProofs2.v
theories/StreamProps.v
theories/StreamSpec.v
theories/SubscriptProofs.v
theories/TextModel.v
theories/TextProofs.v
theories/TextProofs2.v
theories/TextProps.v
theories/TextSpec.v
theories/TextTable.v
theories/TiffModel.v
theories/TiffProps.v
theories/TiffSpec.v
theories/UniData.v
theories/UniModel.v
theories/UniProofs.v
theories/UniProps.v
theories/UniSpec.v
theories/UniTables.v
theories/UniTables2.v
theories/UniTables3.v
theories/UriModel.v
theories/UriProofs.v
theories/UriProps.v
theories/UriSpec.v
theories/ValidExamples.v
theories/ValidModel.v
theories/ValidProofs.v
theories/ValidProofs2.v
theories/ValidProps.v
theories/ValidSpec.v
theories/VerModel.v
theories/VerProps.v
theories/VerSpec.v
theories/ViewModel.v
theories/ViewProofs.v
theories/ViewProofs2.v
theories/ViewProofs3.v
theories/ViewProofs4.v
theories/ViewProofs5.v
theories/ViewProofs6.v
theories/ViewProps.v
theories/ViewSpec.v
theories/WifModel.v
theories/WifProps.v
theories/WordsCs.v
theories/WordsData.v
theories/WordsEn.v
theories/WordsEs.v
theories/WordsFr.v
theories/WordsIt.v
theories/WordsJa.v
theories/WordsKo.v
theories/WordsModel.v
theories/WordsProofs.v
theories/WordsPt.v
theories/WordsV1En.v
theories/WordsV1Pt.v
theories/WordsZhHans.v
theories/WordsZhHant.v
