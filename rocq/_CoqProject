-Q theories Verif
theories/Base.v
theories/PyStr.v
theories/QBase.v
theories/UtilModel.v
theories/UtilSpec.v
theories/ReadModel.v
theories/ReadSpec.v
theories/OSetModel.v
theories/FileListModel.v
theories/DistModel.v
theories/DateModel.v
theories/WriteModel.v
theories/WriteSpec.v
theories/OSetSpec.v
theories/OSetProofs.v
theories/FileListSpec.v
theories/FileListProofs.v
theories/UtilProofs.v
theories/ReadProofs.v
theories/WriteProofs.v
theories/WriteProps.v
theories/ProdModel.v
theories/AeroModel.v
theories/AeroSpec.v
theories/LonModel.v
theories/UngrModel.v
theories/RafModel.v
theories/UngrSpec.v
theories/RafSpec.v
theories/WhModel.v
theories/WhSpec.v
theories/ProdSpec.v
theories/ProdProofs.v
theories/AeroProofs.v
theories/DistSpec.v
theories/DistProofs.v
theories/DateSpec.v
theories/DateProofs.v
theories/RafProofs.v
theories/WhProofs.v
theories/Wh2Proofs.v
theories/HdfModel.v
theories/UngrProofs.v
theories/MtModel.v
theories/MtSpec.v
theories/MtProofs.v
theories/ParseModel.v
theories/ParseSpec.v
theories/ParseProofs.v
theories/LonSpec.v
theories/LonProofs.v
theories/IndexModel.v
theories/IndexSpec.v
theories/IndexProofs.v
theories/SubsetModel.v
theories/SubsetSpec.v
theories/SubsetProofs.v
theories/Subset2Proofs.v
theories/Subset3Proofs.v
theories/InterpModel.v
theories/InterpSpec.v
theories/InterpProofs.v
theories/Interp2Proofs.v
theories/GridIndexModel.v
theories/AggModel.v
theories/GColModel.v
theories/GUModel.v
theories/GUSpec.v
theories/GUProofs.v
theories/GU2Proofs.v
theories/GU3Proofs.v
theories/GridIndexSpec.v
theories/GridIndexProofs.v
theories/AggSpec.v
theories/AggProofs.v
theories/Agg2Proofs.v
theories/CollapseModel.v
theories/CollapseSpec.v
theories/CollapseProofs.v
theories/GGModel.v
theories/GGSpec.v
theories/GGProofs.v
theories/GG2Proofs.v
theories/GG3Proofs.v
theories/Agg3Proofs.v
theories/Agg4Proofs.v
theories/GColSpec.v
theories/GColProofs.v
theories/GCol2Proofs.v
theories/GU4Proofs.v
theories/GU5Proofs.v
theories/Raf2Proofs.v
theories/Raf3Proofs.v
theories/HdfSpec.v
theories/HdfProofs.v
theories/LstModel.v
theories/LstSpec.v
theories/LstProofs.v
theories/Wh3Proofs.v
theories/WhProps.v
theories/UtilProps.v
theories/GViewModel.v
theories/GViewSpec.v
theories/GViewProofs.v
theories/UngrProps.v
theories/CciModel.v
theories/CciSpec.v
theories/TxtSpec.v
theories/TxtModel.v
theories/TxtProofs.v
theories/TxtProps.v
theories/ReModel.v
theories/ArgsModel.v
theories/TopModel.v
theories/TopSpec.v
theories/Parse2Proofs.v
theories/TopProofs.v
theories/TopProps.v
theories/StatsModel.v
theories/TaylorModel.v
theories/TaylorSpec.v
theories/StatsSpec.v
theories/StatsProofs.v
theories/TaylorProofs.v
theories/Taylor2Proofs.v
theories/Taylor3Proofs.v
theories/Taylor4Proofs.v
theories/TaylorProps.v
theories/SunSpec.v
theories/SunModel.v
theories/Raf4Proofs.v
theories/Hdf2Proofs.v
theories/Hdf3Proofs.v
theories/SunProofs.v
theories/Sun2Proofs.v
theories/Sun3Proofs.v
theories/Sun4Proofs.v
theories/SunProps.v
theories/SumModel.v
theories/SumSpec.v
theories/Mt2Proofs.v
theories/Mt3Proofs.v
theories/SumProofs.v
theories/SumProps.v
theories/SubsetProps.v
theories/StatsProps.v
theories/RunModel.v
theories/RunSpec.v
theories/RunProofs.v
theories/RunProps.v
theories/ReadProps.v
theories/ReProofs.v
theories/RdrModel.v
theories/RdrSpec.v
theories/RdrProofs.v
theories/RdrProps.v
theories/Raf5Proofs.v
theories/RafProps.v
theories/KDModel.v
theories/HavModel.v
theories/PtModel.v
theories/PtSpec.v
theories/HavSpec.v
theories/KDSpec.v
theories/KDProofs.v
theories/KD2Proofs.v
theories/KD3Proofs.v
theories/KD4Proofs.v
theories/HavProofs.v
theories/Hav2Proofs.v
theories/Hav3Proofs.v
theories/PtProofs.v
theories/Pt2Proofs.v
theories/PtProps.v
theories/ProdProps.v
theories/PqModel.v
theories/PqSpec.v
theories/PqProofs.v
theories/Pq2Proofs.v
theories/Pq3Proofs.v
theories/PqProps.v
theories/ParseProps.v
theories/OptModel.v
theories/OptSpec.v
theories/OptProofs.v
theories/Opt2Proofs.v
theories/Opt3Proofs.v
theories/Opt4Proofs.v
theories/Opt5Proofs.v
theories/Opt6Proofs.v
theories/Opt7Proofs.v
theories/Opt8Proofs.v
theories/Opt9Proofs.v
theories/OptProps.v
theories/OSetProps.v
theories/NcgModel.v
theories/NcgSpec.v
theories/NcgProofs.v
theories/Ncg2Proofs.v
theories/NcgProps.v
theories/NamModel.v
theories/NamSpec.v
theories/LstProps.v
theories/NamProofs.v
theories/NamProps.v
theories/MtProps.v
theories/MskSpec.v
theories/ColModel.v
theories/BallModel.v
theories/ColSpec.v
theories/BallSpec.v
theories/MskModel.v
theories/Hav4Proofs.v
theories/ColProofs.v
theories/Hav5Proofs.v
theories/Col2Proofs.v
theories/Col3Proofs.v
theories/BallProofs.v
theories/Ball2Proofs.v
theories/MskProofs.v
theories/Msk2Proofs.v
theories/Msk3Proofs.v
theories/MskProps.v
theories/ModisModel.v
theories/ModisSpec.v
theories/ModisProofs.v
theories/ModisProps.v
theories/MeshModel.v
theories/MeshSpec.v
theories/MeshProofs.v
theories/Mesh2Proofs.v
theories/MeshProps.v
theories/HeapModel.v
theories/HeapSpec.v
theories/MathModel.v
theories/MathSpec.v
theories/HeapProofs.v
theories/Heap2Proofs.v
theories/Heap3Proofs.v
theories/Heap4Proofs.v
theories/Heap6Proofs.v
theories/Heap5Proofs.v
theories/HeapProps.v
theories/MathProofs.v
theories/Math2Proofs.v
theories/MathProps.v
theories/M3Model.v
theories/M3Spec.v
theories/M3Proofs.v
theories/M3Props.v
theories/LonProps.v
theories/FmtModel.v
theories/LkModel.v
theories/LkSpec.v
theories/FmtSpec.v
theories/FmtProofs.v
theories/LkProofs.v
theories/LkProps.v
theories/LayerModel.v
theories/LayerSpec.v
theories/LayerProofs.v
theories/Layer2Proofs.v
theories/LayerProps.v
theories/L3Model.v
theories/L3Spec.v
theories/L3Proofs.v
theories/L3Props.v
theories/KmModel.v
theories/KmSpec.v
theories/KmProofs.v
theories/KmProps.v
theories/KDProps.v
theories/Interp3Proofs.v
theories/InterpProps.v
theories/IndexProps.v
theories/HsModel.v
theories/HsSpec.v
theories/HsProofs.v
theories/Hs9Proofs.v
theories/HsProps.v
theories/Hdf4Proofs.v
theories/HdfProps.v
theories/HavProps.v
theories/HadSpec.v
theories/HadModel.v
theories/HadProofs.v
theories/Had2Proofs.v
theories/HadProps.v
theories/GridIndexProps.v
theories/GlModel.v
theories/GlSpec.v
theories/GlProofs.v
theories/Gl2Proofs.v
theories/Gl3Proofs.v
theories/GlProps.v
theories/GU6Proofs.v
theories/GUProps.v
theories/GG4Proofs.v
theories/GGProps.v
theories/Agg5Proofs.v
theories/GCol3Proofs.v
theories/GColProps.v
theories/FrModel.v
theories/FrSpec.v
theories/FrProofs.v
theories/Fr2Proofs.v
theories/FrProps.v
theories/FmtProps.v
theories/FileListProps.v
theories/EvalModel.v
theories/EvalSpec.v
theories/EvalProofs.v
theories/EvalProps.v
theories/EqvModel.v
theories/EqvSpec.v
theories/EqvProofs.v
theories/Eqv2Proofs.v
theories/EqvProps.v
theories/EcModel.v
theories/EcSpec.v
theories/EcProofs.v
theories/EcProps.v
theories/DsModel.v
theories/DsSpec.v
theories/DsProofs.v
theories/Ds2Proofs.v
theories/DsProps.v
theories/DistProps.v
theories/DateProps.v
theories/CrtModel.v
theories/CrtSpec.v
theories/CrtProofs.v
theories/Crt2Proofs.v
theories/Crt3Proofs.v
theories/CrtProps.v
theories/CollapseProps.v
theories/ColProps.v
theories/CnModel.v
theories/CnSpec.v
theories/CnProofs.v
theories/CnProps.v
theories/CmpModel.v
theories/CmpSpec.v
theories/CmpProofs.v
theories/CmpProps.v
theories/CmdModel.v
theories/CmdSpec.v
theories/CmdProofs.v
theories/CmdProps.v
theories/CciProofs.v
theories/CciProps.v
theories/CalSpec.v
theories/CalProofs.v
theories/Cal2Proofs.v
theories/CalProps.v
theories/Ball3Proofs.v
theories/Ball4Proofs.v
theories/BallProps.v
theories/AxisModel.v
theories/AxisSpec.v
theories/AxisProofs.v
theories/AxisProps.v
theories/ArgsSpec.v
theories/ArgsProofs.v
theories/Args2Proofs.v
theories/Args3Proofs.v
theories/ArgsProps.v
theories/AggProps.v
theories/AeroProps.v
