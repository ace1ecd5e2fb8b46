-Q theories Verif
theories/Base.v
theories/TokModel.v
theories/WriteModel.v
theories/ReadEq.v
theories/TokProofs.v
theories/LexProofs.v
theories/RealProofs.v
theories/DictProofs.v
theories/ObjSpec.v
theories/ObjProofs.v
theories/FuelProofs.v
theories/ParseProofs.v
theories/RealParse.v
theories/ObjPropLemmas.v
theories/ObjProps.v
theories/BitLemmas.v
theories/FilterModel.v
theories/FilterSpec.v
theories/FilterProofs.v
theories/ChainProofs.v
theories/PredProofs.v
theories/LzwProofs.v
theories/FilterPropLemmas.v
theories/FilterProps.v
theories/UtilModel.v
theories/UtilProofs.v
theories/UtilProps.v
theories/TextModel.v
theories/TextSpec.v
theories/TextProofs.v
theories/TextPropLemmas.v
theories/TextProps.v
theories/BoundarySpec.v
theories/BoundaryProofs.v
theories/BoundaryProps.v
theories/DateModel.v
theories/DateSpec.v
theories/DateProofs.v
theories/DatePropLemmas.v
theories/DateProps.v
theories/ListModel.v
theories/ListSpec.v
theories/ListProofs.v
theories/ListPropLemmas.v
theories/ListProps.v
theories/OwnModel.v
theories/OwnSpec.v
theories/OwnProofs.v
theories/OwnPropLemmas.v
theories/OwnProps.v
theories/LitSpec.v
theories/LitProofs.v
theories/LitProps.v
theories/ConformSpec.v
theories/ConformProofs.v
theories/ConformProps.v
theories/XrefModel.v
theories/XrefSpec.v
theories/XrefProofs.v
theories/XrefReadProofs.v
theories/XrefPropLemmas.v
theories/XrefLineProofs.v
theories/XrefStreamProofs.v
theories/XrefProps.v
theories/ParserModel.v
theories/ParserSpec.v
theories/ParserProofs.v
theories/ParserPropLemmas.v
theories/ParserProps.v
theories/UpdateModel.v
theories/UpdateSpec.v
theories/UpdateProofs.v
theories/UpdatePropLemmas.v
theories/UpdateProps.v
theories/UpdateEmptyProps.v
theories/StreamModel.v
theories/StreamSpec.v
theories/StreamProofs.v
theories/StreamPropLemmas.v
theories/StreamProps.v
theories/PageModel.v
theories/PageSpec.v
theories/PageProofs.v
theories/PageOpProofs.v
theories/PageDelProofs.v
theories/PagePropLemmas.v
theories/PageHostile.v
theories/PageProps.v
theories/NameModel.v
theories/NameSpec.v
theories/NameProofs.v
theories/NameOpProofs.v
theories/NamePropLemmas.v
theories/NameProps.v
theories/OutlineModel.v
theories/OutlineSpec.v
theories/OutlineProofs.v
theories/OutlineOpProofs.v
theories/OutlinePropLemmas.v
theories/OutlineProps.v
theories/Md5.v
theories/Rc4Model.v
theories/Rc4Spec.v
theories/Rc4Proofs.v
theories/Rc4PropLemmas.v
theories/EncryptModel.v
theories/EncryptSpec.v
theories/EncryptProofs.v
theories/EncryptPropLemmas.v
theories/Rc4Props.v
theories/EncryptProps.v
theories/AesModel.v
theories/AesSpec.v
theories/AesProofs.v
theories/AesPropLemmas.v
theories/AesProps.v
theories/RectModel.v
theories/RectProps.v
theories/DevModel.v
theories/DevSpec.v
theories/DevProofs.v
theories/DevProps.v
theories/CodeModel.v
theories/CodeSpec.v
theories/CodeProofs.v
theories/CodePropLemmas.v
theories/CodeProps.v
theories/CMapModel.v
theories/CMapSpec.v
theories/CMapProofs.v
theories/CMapTextProofs.v
theories/CMapPropLemmas.v
theories/CMapWriteProofs.v
theories/CMapProps.v
theories/CidModel.v
theories/CidSpec.v
theories/CidProofs.v
theories/CidProps.v
theories/XrefIndexProps.v
theories/FontModel.v
theories/FontSpec.v
theories/FontProofs.v
theories/FontPropLemmas.v
theories/FontProps.v
theories/DiffTables.v
theories/DiffModel.v
theories/DiffSpec.v
theories/DiffProofs.v
theories/DiffPropLemmas.v
theories/DiffProps.v
theories/OpTables.v
theories/ContentsModel.v
theories/ContentsSpec.v
theories/ContentsDevProofs.v
theories/ContentsTokProofs.v
theories/ContentsProofs.v
theories/ContentsEndProofs.v
theories/ContentsProps.v
theories/TtfModel.v
theories/TtfSpec.v
theories/TtfReadProofs.v
theories/TtfLoadProofs.v
theories/TtfOrderProofs.v
theories/TtfLayoutProofs.v
theories/TtfWriteProofs.v
theories/TtfSafeProofs.v
theories/TtfPropLemmas.v
theories/TtfProps.v
theories/GrammarSpec.v
theories/GrammarProofs.v
theories/GrammarPropLemmas.v
theories/GrammarWriteProofs.v
theories/GrammarProps.v
theories/SignModel.v
theories/SignSpec.v
theories/SignProofs.v
theories/SignPropLemmas.v
theories/SignReadProofs.v
theories/SignProps.v
theories/CollModel.v
theories/FieldModel.v
theories/CollSpec.v
theories/CollProofs.v
theories/CollPropLemmas.v
theories/CollProps.v
theories/FieldSpec.v
theories/FieldProofs.v
theories/FieldPropLemmas.v
theories/FieldProps.v
theories/PainterModel.v
theories/PainterSpec.v
theories/PainterTextProofs.v
theories/PainterProofs.v
theories/PainterSimProofs.v
theories/PainterCallProofs.v
theories/PainterPageProofs.v
theories/PainterReadProofs.v
theories/PainterGeoProofs.v
theories/PainterProps.v
theories/ColorTable.v
theories/ColorModel.v
theories/ColorSpec.v
theories/ColorProofs.v
theories/ColorTextProofs.v
theories/ColorProps.v
theories/LinkModel.v
theories/LinkSpec.v
theories/LinkProofs.v
theories/LinkProps.v
theories/AnnotModel.v
theories/AnnotSpec.v
theories/AnnotProofs.v
theories/AnnotPropLemmas.v
theories/AnnotProps.v
theories/ExtractModel.v
theories/ExtractSpec.v
theories/ExtractProofs.v
theories/ExtractSimProofs.v
theories/ExtractGroupProofs.v
theories/ExtractTrimProofs.v
theories/ExtractWordProofs.v
theories/ExtractPropLemmas.v
theories/ExtractFilterProofs.v
theories/ExtractProps.v
theories/XmpModel.v
theories/XmpSpec.v
theories/XmpProofs.v
theories/XmpPropLemmas.v
theories/XmpUpdateProofs.v
theories/XmpProps.v
theories/MetaModel.v
theories/MetaSpec.v
theories/MetaProofs.v
theories/MetaProps.v
theories/CatalogModel.v
theories/CatalogSpec.v
theories/CatalogProofs.v
theories/CatalogProps.v
theories/AppendModel.v
theories/AppendSpec.v
theories/AppendProofs.v
theories/AppendProps.v
theories/BoxModel.v
theories/BoxSpec.v
theories/BoxProofs.v
theories/BoxProps.v
theories/FormProps.v
theories/ImmediateModel.v
theories/ImmediateSpec.v
theories/ImmediateProofs.v
theories/StreamLoadProofs.v
theories/ImmediatePropLemmas.v
theories/ImmediateProps.v
theories/ImageModel.v
theories/ImageSpec.v
theories/ImageProofs.v
theories/ImageRowProofs.v
theories/ImagePropLemmas.v
theories/ImageProps.v
theories/XObjectModel.v
theories/XObjectSpec.v
theories/XObjectProps.v
theories/FontCacheModel.v
theories/FontCacheSpec.v
theories/FontCacheProofs.v
theories/FontCacheProps.v
theories/FontLoadModel.v
theories/FontLoadSpec.v
theories/FontLoadProofs.v
theories/FontLoadProps.v
theories/SigValueModel.v
theories/SigValueSpec.v
theories/SigValueProofs.v
theories/SigValueProps.v
theories/CharsModel.v
theories/CharsSpec.v
theories/CharsProofs.v
theories/CharsProps.v
theories/Std14Model.v
theories/Std14Spec.v
theories/Std14Props.v
theories/ErrorModel.v
theories/ErrorSpec.v
theories/ErrorProps.v
theories/ObjCopyModel.v
theories/ObjCopySpec.v
theories/ObjCopyProps.v
theories/EmbedModel.v
theories/EmbedSpec.v
theories/EmbedProps.v
theories/DescModel.v
theories/DescSpec.v
theories/DescProofs.v
theories/DescProps.v
theories/OutMergeModel.v
theories/OutMergeProofs.v
theories/OutMergeProps.v
