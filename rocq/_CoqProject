-Q theories Verif
theories/Base.v
theories/TextModel.v
theories/TextSpec.v
theories/TextProofs.v
theories/F64Model.v
theories/F64Proofs.v
theories/F64Spec.v
theories/F64SpecProofs.v
theories/CodePairModel.v
theories/CodePairSpec.v
theories/CodePairProofs.v
theories/BinaryProofs.v
theories/ReaderProofs.v
theories/LineProofs.v
theories/TextProps.v
theories/CodePairProps.v
theories/VersionModel.v
theories/StreamModel.v
theories/StreamSpec.v
theories/StreamProofs.v
theories/VersionProofs.v
theories/StreamProps.v
theories/ExtDataModel.v
theories/ExtDataSpec.v
theories/ExtDataProofs.v
theories/ExtDataProps.v
theories/BitsModel.v
theories/FlagData.v
theories/BitsSpec.v
theories/BitsProofs.v
theories/BitsProps.v
theories/GeometryModel.v
theories/GeometryProps.v
theories/ThumbnailModel.v
theories/ThumbnailSpec.v
theories/ThumbnailProofs.v
theories/ThumbnailProps.v
theories/UuidModel.v
theories/UuidSpec.v
theories/UuidProofs.v
theories/UuidProps.v
theories/DateModel.v
theories/DateProofs.v
theories/DateProps.v
theories/CollectModel.v
theories/CollectSpec.v
theories/CollectProofs.v
theories/CollectProps.v
theories/SpecModel.v
theories/SpecSpec.v
theories/SpecCheck.v
theories/SpecProofs.v
theories/SpecLoopProofs.v
theories/SpecItemProofs.v
theories/SpecCoverProofs.v
theories/SpecWitness.v
theories/EnumData.v
theories/TableData.v
theories/TableProps.v
theories/EntityData.v
theories/EntityProps.v
theories/ObjectData.v
theories/ObjectProps.v
theories/CustomModel.v
theories/CustomSpec.v
theories/CustomProofs.v
theories/SuffixProofs.v
theories/CustomProps.v
theories/HeaderModel.v
theories/HeaderSpec.v
theories/HeaderData.v
theories/HeaderProofs.v
theories/HeaderProps.v
theories/DrawingModel.v
theories/DrawingSpec.v
theories/DrawingProofs.v
theories/NormalizeProofs.v
theories/DrawingProps.v
theories/SectionData.v
theories/FileModel.v
theories/LoadSpec.v
theories/LoadProofs.v
theories/LoadProps.v
theories/SkipProofs.v
theories/GatherProofs.v
theories/SkipProps.v
theories/FileSpec.v
theories/ReturnProofs.v
theories/PartsProofs.v
theories/FileProofs.v
theories/AssembleProofs.v
theories/F32Model.v
theories/DxbModel.v
theories/SaveModel.v
theories/SaveSpec.v
theories/SaveProofs.v
theories/FileWitness.v
theories/SaveProps.v
theories/BlockProps.v
theories/StructureSpec.v
theories/ShapeProofs.v
theories/StructureProofs.v
theories/StructureProps.v
theories/F32Proofs.v
theories/F32Spec.v
theories/F32SpecProofs.v
theories/DxbSpec.v
theories/DxbProofs.v
theories/DxbProps.v
theories/ErrorProofs.v
theories/ErrorProps.v
theories/BytesProofs.v
theories/BytesProps.v
theories/CutProofs.v
theories/CutProps.v
theories/HandleSpec.v
theories/HandleProofs.v
theories/HandleProps.v
theories/StorableSpec.v
theories/StorableProofs.v
theories/StorableFileProofs.v
theories/StorableLoadProofs.v
theories/StorableProps.v
theories/DocSpec.v
theories/DocProofs.v
theories/DocHeaderProofs.v
theories/DocProps.v
theories/CommentSpec.v
theories/CommentProofs.v
theories/CommentProps.v
theories/LocalProofs.v
theories/TrailerSpec.v
theories/TrailerProofs.v
theories/TrailerProps.v
theories/BlockErrorProofs.v
theories/BlockErrorProps.v
theories/SectionsSpec.v
theories/SectionsProofs.v
theories/SectionsFileProofs.v
theories/SectionsProps.v
theories/OrderSpec.v
theories/OrderProofs.v
theories/OrderFileProofs.v
theories/OrderProps.v
theories/StableSpec.v
theories/StableProofs.v
theories/StableProps.v
theories/RefSpec.v
theories/RefProofs.v
theories/RefProps.v
theories/HandleFileSpec.v
theories/HandleFileProofs.v
theories/HandleFileProps.v
theories/SavedHandleProofs.v
theories/SavedHandleProps.v
theories/ListSpec.v
theories/ListProofs.v
theories/ListProps.v
theories/VertexSpec.v
theories/VertexProofs.v
theories/VertexProps.v
theories/DimensionSpec.v
theories/DimensionProofs.v
theories/DimensionProps.v
theories/LayoutSpec.v
theories/LayoutProofs.v
theories/LayoutProps.v
theories/AttribSpec.v
theories/AttribProofs.v
theories/AttribProps.v
theories/SortSpec.v
theories/SortProofs.v
theories/SortProps.v
theories/RestSpec.v
theories/RestProofs.v
theories/RestProps.v
theories/PieceSpec.v
theories/PieceProofs.v
theories/PieceProps.v
theories/DictSpec.v
theories/DictProofs.v
theories/DictProps.v
theories/XrecProofs.v
theories/XrecProps.v
theories/RowProofs.v
theories/RowProps.v
theories/ColumnSpec.v
theories/ColumnProofs.v
theories/ColumnProps.v
