-Q theories Verif
theories/AgainModel.v
theories/AgainProofs.v
theories/AgainProofs2.v
theories/AgainProofs3.v
theories/AgainProps.v
theories/AgainProps2.v
theories/AgainSpec.v
theories/ApartProofs.v
theories/ApartProofs2.v
theories/ApartProofs3.v
theories/ApartProofs4.v
theories/ApartProofs5.v
theories/ApartProps.v
theories/ApartProps2.v
theories/ApartSpec.v
theories/ApartSpec2.v
theories/ArrModel.v
theories/ArrProofs.v
theories/ArrProofs2.v
theories/ArrProps.v
theories/ArrSpec.v
theories/Base.v
theories/BaseProofs.v
theories/BytesProofs.v
theories/ClientModel.v
theories/ClientProofs.v
theories/ClientProofs2.v
theories/ClientProofs3.v
theories/ClientProps.v
theories/ClientSpec.v
theories/ClixModel.v
theories/ClixProofs.v
theories/ClixProps.v
theories/ClsProofs.v
theories/ClsProofs2.v
theories/ClsProofs3.v
theories/ClsProps.v
theories/ClsSpec.v
theories/CodeModel.v
theories/CodeProofs.v
theories/CodeProps.v
theories/CodeSpec.v
theories/ConnModel.v
theories/ConnProofs.v
theories/ConnProps.v
theories/ConnSpec.v
theories/EncModel.v
theories/EncProofs.v
theories/EncProofs2.v
theories/EncProofs3.v
theories/EncProps.v
theories/EncSpec.v
theories/EndProofs.v
theories/EndProofs2.v
theories/EndProofs3.v
theories/EndProps.v
theories/EndSpec.v
theories/EnvModel.v
theories/EnvProofs.v
theories/EnvProofs2.v
theories/EnvProps.v
theories/EnvSpec.v
theories/ErrModel.v
theories/ErrProofs.v
theories/ErrProps.v
theories/ErrSpec.v
theories/FileModel.v
theories/FileProofs.v
theories/FileProps.v
theories/FileSpec.v
theories/FormProofs.v
theories/FormProofs2.v
theories/FormProofs3.v
theories/FormProofs4.v
theories/FormProofs5.v
theories/FormProofs6.v
theories/FormProps.v
theories/FormProps2.v
theories/FormSpec.v
theories/FormSpec2.v
theories/FormSpec3.v
theories/FragModel.v
theories/FragProofs.v
theories/FragProofs2.v
theories/FragProofs3.v
theories/FragProofs4.v
theories/FragProps.v
theories/FragSpec.v
theories/HearProofs.v
theories/HearProofs2.v
theories/HearProofs3.v
theories/HearProofs4.v
theories/HearProofs5.v
theories/HearProps.v
theories/HearProps2.v
theories/HearSpec.v
theories/HearSpec2.v
theories/HomeProofs.v
theories/HomeProofs2.v
theories/HomeSpec.v
theories/HostModel.v
theories/HostProofs.v
theories/HostProofs2.v
theories/HostProps.v
theories/HostProps2.v
theories/HostSpec.v
theories/HostSpec2.v
theories/JobProofs.v
theories/JobProofs2.v
theories/JobProps.v
theories/JobSpec.v
theories/JobToy.v
theories/LibModel.v
theories/ListProofs.v
theories/ListProps.v
theories/ListSpec.v
theories/Lit.v
theories/MsgModel.v
theories/MsgProofs.v
theories/MsgProps.v
theories/MsgSpec.v
theories/NegModel.v
theories/NegProofs.v
theories/NegProps.v
theories/NegSpec.v
theories/NewModel.v
theories/NewProofs.v
theories/NewProofs2.v
theories/NewProps.v
theories/NewProps2.v
theories/NewSpec.v
theories/NumModel.v
theories/NumProofs.v
theories/NumProofs2.v
theories/NumSpec.v
theories/ObjModel.v
theories/ObjProofs.v
theories/ObjProofs2.v
theories/ObjProofs3.v
theories/ObjProofs4.v
theories/ObjProps.v
theories/ObjSpec.v
theories/OptsModel.v
theories/OptsProofs.v
theories/OptsProps.v
theories/OptsSpec.v
theories/PeerProofs.v
theories/PeerProps.v
theories/PeerSpec.v
theories/PoolModel.v
theories/PoolProofs.v
theories/PoolProofs10.v
theories/PoolProofs11.v
theories/PoolProofs12.v
theories/PoolProofs13.v
theories/PoolProofs2.v
theories/PoolProofs3.v
theories/PoolProofs4.v
theories/PoolProofs5.v
theories/PoolProofs6.v
theories/PoolProofs7.v
theories/PoolProofs8.v
theories/PoolProofs9.v
theories/PoolProps.v
theories/PoolProps2.v
theories/PoolProps3.v
theories/PoolProps4.v
theories/PoolSpec.v
theories/PoolSpec2.v
theories/PoolToy.v
theories/QueModel.v
theories/QueProofs.v
theories/QueProps.v
theories/QueSpec.v
theories/RdProofs.v
theories/RdProofs2.v
theories/RdProofs3.v
theories/RdProofs4.v
theories/RdProofs5.v
theories/RdProps.v
theories/RdProps2.v
theories/RdSpec.v
theories/ReModel.v
theories/ReProofs.v
theories/ScreenProofs.v
theories/ScreenProofs2.v
theories/ScreenProps.v
theories/ScreenSpec.v
theories/SendClasses.v
theories/SerClasses.v
theories/SerModel.v
theories/SerProofs.v
theories/SerProofs2.v
theories/SerProofs3.v
theories/SerProofs4.v
theories/SerProofs5.v
theories/SerProofs6.v
theories/SerProps.v
theories/SerProps2.v
theories/SerProps3.v
theories/SerSpec.v
theories/SerSpec2.v
theories/SessModel.v
theories/SessProofs.v
theories/SessProps.v
theories/SessSpec.v
theories/ShellModel.v
theories/ShellProofs.v
theories/ShellProofs2.v
theories/ShellProps.v
theories/ShellSpec.v
theories/StartModel.v
theories/StartProofs.v
theories/StartProofs2.v
theories/StartProofs3.v
theories/StartProps.v
theories/StartSpec.v
theories/TellModel.v
theories/TellProofs.v
theories/TellProofs2.v
theories/TellProofs3.v
theories/TellProps.v
theories/TellProps2.v
theories/TellSpec.v
theories/TextModel.v
theories/TextProofs.v
theories/TextProofs2.v
theories/TextProps.v
theories/TextSpec.v
theories/TransModel.v
theories/TransProofs.v
theories/TransProofs2.v
theories/TransProofs3.v
theories/TransProofs4.v
theories/TransProofs5.v
theories/TransProps.v
theories/TransSpec.v
theories/Utf8Model.v
theories/Utf8Proofs.v
theories/UtilModel.v
theories/UtilProofs.v
theories/UtilProofs2.v
theories/UtilProps.v
theories/UtilSpec.v
theories/WaitProofs.v
theories/WaitProofs2.v
theories/WaitProps.v
theories/WaitProps2.v
theories/WaitSpec.v
theories/WfModel.v
theories/WfProofs.v
theories/WfProofs2.v
theories/WfProofs3.v
theories/WfProps.v
theories/WfSpec.v
theories/WireModel.v
theories/WireProofs.v
theories/WireProps.v
theories/WireSpec.v
theories/WsmanModel.v
theories/WsmanProofs.v
theories/WsmanProofs2.v
theories/WsmanProps.v
theories/WsmanSpec.v
theories/XgModel.v
theories/XgProofs.v
theories/XgProofs2.v
theories/XgProofs3.v
theories/XgProofs4.v
theories/XgProofs5.v
theories/XgProofs6.v
theories/XgProofs7.v
theories/XgProps.v
theories/XgProps2.v
theories/XgSpec.v
theories/XmlModel.v
theories/XtModel.v
theories/XtProofs.v
theories/XtProofs2.v
theories/XtProofs3.v
theories/XtProps.v
theories/XtSpec.v
