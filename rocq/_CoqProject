-Q theories Verif
theories/Lib/Bytes.v
theories/Lib/CxxString.v
theories/Lib/CxxStringFacts.v
theories/Lib/DecFacts.v
theories/Model/Address.v
theories/Model/ArgcDeal.v
theories/Model/ArgcPrint.v
theories/Model/Client.v
theories/Model/ClientServer.v
theories/Model/ClientServerTls.v
theories/Model/ClientThreads.v
theories/Model/ClientTls.v
theories/Model/Const.v
theories/Model/Demos.v
theories/Model/Enums.v
theories/Model/File.v
theories/Model/Header.v
theories/Model/Host.v
theories/Model/HttpLife.v
theories/Model/HttpSystem.v
theories/Model/HttpThreads.v
theories/Model/Https.v
theories/Model/HttpsSystem.v
theories/Model/HttpsThreads.v
theories/Model/LifeMessages.v
theories/Model/Logger.v
theories/Model/Messages.v
theories/Model/Multiplex.v
theories/Model/ProcessCtrl.v
theories/Model/Req.v
theories/Model/Resp.v
theories/Model/Route.v
theories/Model/Router.v
theories/Model/Server.v
theories/Model/SlowPeer.v
theories/Model/SlowThreads.v
theories/Model/Socket.v
theories/Model/Ssl.v
theories/Model/SslMessages.v
theories/Model/SslSocketMessages.v
theories/Model/StringUtil.v
theories/Model/SystemLog.v
theories/Model/TcpServer.v
theories/Model/ThreadPool.v
theories/Model/Timer.v
theories/Model/Trie.v
theories/Model/Udp.v
theories/Model/WebServer.v
theories/Proof/FileProof.v
theories/Proof/HeaderProof.v
theories/Proof/HttpSystemProof.v
theories/Proof/HttpThreadsProof.v
theories/Proof/HttpsSystemProof.v
theories/Proof/HttpsThreadsProof.v
theories/Proof/LogProof.v
theories/Proof/LoggerProof.v
theories/Proof/MessageProof.v
theories/Proof/PrivacyProof.v
theories/Proof/ReqProof.v
theories/Proof/RespProof.v
theories/Proof/RouteProof.v
theories/Proof/RouterProof.v
theories/Proof/ServerProof.v
theories/Proof/SocketProof.v
theories/Proof/SslProof.v
theories/Proof/StrangerProof.v
theories/Proof/StrangerTlsProof.v
theories/Proof/StringProof.v
theories/Proof/TcpDrainProof.v
theories/Proof/TcpNotifyProof.v
theories/Proof/TcpServerProof.v
theories/Proof/TcpStopProof.v
theories/Proof/TcpThreadProof.v
theories/Proof/TextProof.v
theories/Proof/ThreadPoolProof.v
theories/Proof/TrieProof.v
theories/Props/AbsoluteFormProps.v
theories/Props/AddressProps.v
theories/Props/AddressTextProps.v
theories/Props/ArgcProps.v
theories/Props/BinaryProps.v
theories/Props/ClientProps.v
theories/Props/ClientServerProps.v
theories/Props/ClientServerTlsProps.v
theories/Props/ClientThreadsProps.v
theories/Props/ClientTlsProps.v
theories/Props/DecodeProps.v
theories/Props/DemoProps.v
theories/Props/ExactProps.v
theories/Props/FieldRulesProps.v
theories/Props/FileKindProps.v
theories/Props/FileProps.v
theories/Props/FileTypeProps.v
theories/Props/FramingProps.v
theories/Props/GroupProps.v
theories/Props/HeadFileProps.v
theories/Props/HeaderProps.v
theories/Props/HostProps.v
theories/Props/HttpLifeProps.v
theories/Props/HttpRulesProps.v
theories/Props/HttpSystemProps.v
theories/Props/HttpThreadsProps.v
theories/Props/HttpsProps.v
theories/Props/HttpsSystemProps.v
theories/Props/HttpsThreadsProps.v
theories/Props/LifeMessageProps.v
theories/Props/LogProps.v
theories/Props/LoggerProps.v
theories/Props/MakeReqProps.v
theories/Props/MessageProps.v
theories/Props/MultiplexProps.v
theories/Props/NoContentProps.v
theories/Props/AnswerLinesProps.v
theories/Props/PrivacyProps.v
theories/Props/ProcessProps.v
theories/Props/ReplyProps.v
theories/Props/RestProps.v
theories/Props/RouteProps.v
theories/Props/RouterProps.v
theories/Props/SentProps.v
theories/Props/ServerInitProps.v
theories/Props/ServerLoopProps.v
theories/Props/ServerProps.v
theories/Props/SlowPeerProps.v
theories/Props/SlowThreadsProps.v
theories/Props/SocketProps.v
theories/Props/SslMessageProps.v
theories/Props/SslProps.v
theories/Props/SslSocketMessageProps.v
theories/Props/StaticProps.v
theories/Props/StringProps.v
theories/Props/SystemLogProps.v
theories/Props/TargetProps.v
theories/Props/ThreadPoolProps.v
theories/Props/TimerProps.v
theories/Props/TrieProps.v
theories/Props/TypeTableProps.v
theories/Props/UdpProps.v
theories/Props/UnknownProps.v
theories/Props/UsageProps.v
theories/Props/WebServerProps.v
theories/Props/WebsiteProps.v
theories/Props/WebsiteThreadsProps.v
theories/Props/WebsiteTlsProps.v
theories/Spec/FileSpec.v
theories/Spec/HttpSpec.v
theories/Spec/LoggerSpec.v
theories/Spec/RouterSpec.v
theories/Spec/ServerSpec.v
theories/Spec/SocketSpec.v
theories/Spec/SslSpec.v
theories/Spec/StringSpec.v
theories/Spec/TcpServerSpec.v
theories/Spec/ThreadPoolSpec.v
theories/Spec/TrieSpec.v
