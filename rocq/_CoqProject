-Q theories Verif
theories/AtomModel.v
theories/AtomProofs.v
theories/AtomProps.v
theories/AtomSpec.v
theories/AuxModel.v
theories/AuxProofs.v
theories/AuxProps.v
theories/AuxSpec.v
theories/AvcProps.v
theories/Base.v
theories/BitLemmas.v
theories/BitModel.v
theories/BitProofs.v
theories/BitSpec.v
theories/BoxModel.v
theories/BoxProofs.v
theories/BoxSpec.v
theories/ChunkModel.v
theories/ChunkProofs.v
theories/ChunkProps.v
theories/ChunkSpec.v
theories/Codec.v
theories/CryptModel.v
theories/CryptProofs.v
theories/CryptProps.v
theories/CryptSpec.v
theories/CsgpProofs.v
theories/CttsModel.v
theories/CttsProofs.v
theories/CttsProps.v
theories/CttsSpec.v
theories/DescAtModel.v
theories/DescAtProps.v
theories/DescAtSpec.v
theories/DescModel.v
theories/DescProofs.v
theories/DescProps.v
theories/DescSpec.v
theories/DurModel.v
theories/DurProps.v
theories/DurSpec.v
theories/EditModel.v
theories/EditProps.v
theories/EditReadProofs.v
theories/EditSpec.v
theories/ElsewhereModel.v
theories/ElsewhereProps.v
theories/ElsewhereSpec.v
theories/EntryModel.v
theories/EntryProofs.v
theories/EntryProps.v
theories/EntrySpec.v
theories/EsdModel.v
theories/EsdProps.v
theories/EsdSpec.v
theories/FileModel.v
theories/FileProofs.v
theories/FileProps.v
theories/FileSpec.v
theories/FindModel.v
theories/FindProofs.v
theories/FindProps.v
theories/FindSpec.v
theories/ForeignModel.v
theories/ForeignProps.v
theories/ForeignSpec.v
theories/FragModel.v
theories/FragProofs.v
theories/FragProps.v
theories/FragSpec.v
theories/GroupModel.v
theories/GroupProofs.v
theories/GroupProps.v
theories/GroupSpec.v
theories/HandleModel.v
theories/HandleProofs.v
theories/HandleProps.v
theories/HandleSpec.v
theories/HeaderBoxModel.v
theories/HeaderModel.v
theories/HeaderProofs.v
theories/HeaderProps.v
theories/HeaderSpec.v
theories/IlocModel.v
theories/IlocProofs.v
theories/IlocProps.v
theories/IlocSpec.v
theories/IndexModel.v
theories/IndexProofs.v
theories/IndexProps.v
theories/IndexSpec.v
theories/IodModel.v
theories/IodProps.v
theories/IodSpec.v
theories/IpmpModel.v
theories/IpmpProps.v
theories/IpmpSpec.v
theories/ItemModel.v
theories/ItemProofs.v
theories/ItemProps.v
theories/ItemSpec.v
theories/KidsModel.v
theories/KidsProofs.v
theories/LListModel.v
theories/LListProofs.v
theories/LListProps.v
theories/LListSpec.v
theories/LangModel.v
theories/LangProps.v
theories/LangSpec.v
theories/MarkModel.v
theories/MarkProofs.v
theories/MarkProps.v
theories/MarkSpec.v
theories/MboxHist.v
theories/MboxModel.v
theories/MboxProofs.v
theories/MboxProps.v
theories/MboxSpec.v
theories/MdatModel.v
theories/MebxModel.v
theories/MebxProofs.v
theories/MebxProps.v
theories/MebxSpec.v
theories/MediaFilesModel.v
theories/MediaFilesProps.v
theories/MediaFilesSpec.v
theories/MediaModel.v
theories/MediaProofs.v
theories/MediaProps.v
theories/MediaSpec.v
theories/MergeFragProofs.v
theories/MergeProps.v
theories/MmetaModel.v
theories/MmetaProps.v
theories/MmetaSpec.v
theories/MoofModel.v
theories/MoofProofs.v
theories/MoofSpec.v
theories/MvexModel.v
theories/MvexProps.v
theories/MvexSpec.v
theories/OdModel.v
theories/OdProofs.v
theories/OdProps.v
theories/OdSpec.v
theories/ParamHandle.v
theories/ParamModel.v
theories/ParamProofs.v
theories/ParamProps.v
theories/ParamSpec.v
theories/PropertyModel.v
theories/PropertyProofs.v
theories/PropertyProps.v
theories/PropertySpec.v
theories/ReaderModel.v
theories/ReaderProofs.v
theories/ReaderProps.v
theories/ReaderSpec.v
theories/Reads.v
theories/ReopenModel.v
theories/ReopenProofs.v
theories/ReopenProps.v
theories/ReopenSpec.v
theories/SaveModel.v
theories/SaveProofs.v
theories/SaveProps.v
theories/SaveSpec.v
theories/SetModel.v
theories/SetProps.v
theories/SetSpec.v
theories/ShapeProofs.v
theories/SizeModel.v
theories/SizeProofs.v
theories/SizeProps.v
theories/SizeSpec.v
theories/SlSetModel.v
theories/SlSetProps.v
theories/SlSetSpec.v
theories/SmallModel.v
theories/SmallProofs.v
theories/SmallProps.v
theories/SmallSpec.v
theories/SpsProofs.v
theories/StreamModel.v
theories/StreamProofs.v
theories/StreamProps.v
theories/StreamSpec.v
theories/SttsModel.v
theories/SttsProofs.v
theories/SttsProps.v
theories/SttsSpec.v
theories/SyncModel.v
theories/SyncProofs.v
theories/SyncProps.v
theories/SyncSpec.v
theories/TextModel.v
theories/TextProofs.v
theories/TextProps.v
theories/TextSpec.v
theories/TrackModel.v
theories/TrackProofs.v
theories/TrackProps.v
theories/TrackSpec.v
theories/TrafModel.v
theories/TrafProps.v
theories/TrafSpec.v
theories/UserModel.v
theories/UserProofs.v
theories/UserProps.v
theories/UserSpec.v
theories/VvcProps.v
