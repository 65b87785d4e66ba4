-Q theories Verif
theories/Base.v
theories/BaseLemmas.v
theories/StrModel.v
theories/StrSpec.v
theories/StrProofs.v
theories/StrProofs2.v
theories/StrProofs3.v
theories/StrProps.v
theories/MemModel.v
theories/MemProofs.v
theories/MemSpec.v
theories/MemProps.v
theories/AllocModel.v
theories/AllocSpec.v
theories/AllocProofs.v
theories/AllocProofs2.v
theories/AllocProofs3.v
theories/AllocProps.v
theories/ConvModel.v
theories/ConvSpec.v
theories/ConvProofs.v
theories/ConvProofs2.v
theories/ConvProofs3.v
theories/ConvProofs4.v
theories/ConvProofs5.v
theories/ConvProofs6.v
theories/ConvProps.v
theories/MathModel.v
theories/MathSpec.v
theories/MathProofs.v
theories/MathProps.v
theories/NetModel.v
theories/NetSpec.v
theories/NetProofs.v
theories/NetProofs2.v
theories/NetProps.v
theories/SortModel.v
theories/SortSpec.v
theories/SortProofs.v
theories/SortProps.v
theories/SysModel.v
theories/SysSpec.v
theories/SysProofs.v
theories/SysProps.v
theories/EnvModel.v
theories/EnvSpec.v
theories/EnvProofs.v
theories/EnvProps.v
theories/StreamModel.v
theories/StreamSpec.v
theories/StreamProofs.v
theories/StreamProofs2.v
theories/StreamProps.v
theories/PrintModel.v
theories/PrintSpec.v
theories/PrintProofs.v
theories/PrintProofs2.v
theories/PrintProofs3.v
theories/PrintProps.v
theories/PathModel.v
theories/PathSpec.v
theories/PathProofs.v
theories/PathProofs2.v
theories/PathProofs3.v
theories/PathProps.v
theories/MatchModel.v
theories/MatchSpec.v
theories/MatchProofs.v
theories/MatchProofs2.v
theories/MatchProofs3.v
theories/MatchProofs4.v
theories/MatchProofs5.v
theories/MatchProps.v
theories/UserModel.v
theories/UserSpec.v
theories/UserProofs.v
theories/UserProofs2.v
theories/UserProofs3.v
theories/UserProofs4.v
theories/UserProofs5.v
theories/UserProofs6.v
theories/UserProofs7.v
theories/UserProps.v
theories/GetoptModel.v
theories/GetoptSpec.v
theories/GetoptProofs.v
theories/GetoptProofs2.v
theories/GetoptProps.v
theories/ShrinkModel.v
theories/ShrinkSpec.v
theories/ShrinkProofs.v
theories/ShrinkProofs2.v
theories/ShrinkProofs3.v
theories/ShrinkProofs4.v
theories/ShrinkProps.v
theories/DirModel.v
theories/DirSpec.v
theories/DirProofs.v
theories/DirProofs2.v
theories/DirProofs3.v
theories/DirProofs4.v
theories/DirProps.v
theories/ConvProofs7.v
theories/ConvProps2.v
theories/PrintProofs4.v
theories/KsortModel.v
theories/KsortSpec.v
theories/KsortProofs.v
theories/KsortProofs2.v
theories/KsortProofs3.v
theories/KsortProofs4.v
theories/KsortProofs5.v
theories/KsortProps.v
theories/KmallocModel.v
theories/KmallocSpec.v
theories/KmallocProofs.v
theories/KmallocProofs2.v
theories/KmallocProofs3.v
theories/KmallocProofs4.v
theories/KmallocProofs5.v
theories/KmallocProofs6.v
theories/KmallocProps.v
theories/RegetModel.v
theories/RegetSpec.v
theories/RegetProofs.v
theories/RegetProofs2.v
theories/RegetProps.v
theories/OutModel.v
theories/OutSpec.v
theories/OutProofs.v
theories/OutProofs2.v
theories/OutProofs3.v
theories/OutProps.v
theories/MextModel.v
theories/MextSpec.v
theories/MextProofs.v
theories/MextProofs2.v
theories/MextProofs3.v
theories/MextProofs4.v
theories/MextProofs5.v
theories/MextProofs6.v
theories/MextProofs7.v
theories/MextProps.v
theories/ProcModel.v
theories/ProcSpec.v
theories/ProcProofs.v
theories/ProcProps.v
theories/ImaxModel.v
theories/ImaxProofs.v
theories/ImaxProps.v
theories/PageModel.v
theories/PageSpec.v
theories/PageProofs.v
theories/PageProps.v
theories/OptmModel.v
theories/OptmSpec.v
theories/OptmProofs.v
theories/OptmProps.v
theories/ErrstrModel.v
theories/ErrstrSpec.v
theories/ErrstrProofs.v
theories/ErrstrProps.v
theories/PrintProofs5.v
theories/TermModel.v
theories/TermSpec.v
theories/TermProofs.v
theories/TermProps.v
theories/FmtModel.v
theories/FmtProps.v
theories/GrpModel.v
theories/GrpProps.v
theories/HandModel.v
theories/HandProps.v
theories/BlankModel.v
theories/BlankSpec.v
theories/BlankProofs.v
theories/BlankProps.v
theories/TspecModel.v
theories/TspecProps.v
theories/DtoModel.v
theories/DtoProps.v
theories/ArrModel.v
theories/ArrProps.v
theories/CallModel.v
theories/CallSpec.v
theories/CallProofs.v
theories/CallProps.v
theories/EndModel.v
theories/EndProps.v
theories/AsmModel.v
theories/AsmProps.v
theories/RmcModel.v
theories/RmcSpec.v
theories/RmcProofs1.v
theories/RmcProofs2.v
theories/RmcProofs3.v
theories/RmcProps.v
theories/MtwoModel.v
theories/MtwoSpec.v
theories/MtwoProofs1.v
theories/MtwoProofs2.v
theories/MtwoProofs3.v
theories/MtwoProofs4.v
theories/MtwoProofs5.v
theories/MtwoProofs6.v
theories/MtwoProofs7.v
theories/MtwoProps.v
theories/PrintProofs0.v
theories/AbiModel.v
theories/AbiSpec.v
theories/AbiProofs.v
theories/AbiProps.v
theories/ErrmModel.v
theories/ErrmProps.v
theories/ElftModel.v
theories/ElftSpec.v
theories/ElftProofs.v
theories/ElftProps.v
theories/UdbModel.v
theories/UdbProps.v
theories/MaskModel.v
theories/MaskProps.v
theories/BrkModel.v
theories/BrkProps.v
theories/WaitModel.v
theories/WaitProps.v
theories/ElfmModel.v
theories/ElfmSpec.v
theories/ElfmProps.v
theories/PushModel.v
theories/PushProps.v
theories/StripModel.v
theories/StripProps.v
theories/TmplModel.v
theories/TmplProps.v
theories/CombModel.v
theories/CombProps.v
theories/PtyModel.v
theories/PtyProps.v
theories/IpoModel.v
theories/IpoProps.v
theories/DepModel.v
theories/DepProps.v
theories/LdModel.v
theories/LdProps.v
theories/CopyProps.v
theories/DictProps.v
theories/CsvProps.v
theories/EnvnProps.v
theories/PrintProofs6.v
theories/NumfProps.v
theories/GconfModel.v
theories/GconfProps.v
theories/MixModel.v
theories/MixProps.v
theories/DtoSpec.v
theories/DtoProofs2.v
