(** Generated by tools/gen_base_schema.py from src/events/field_dictionary.rs and src/events/base_schema.rs. *)
From Coq Require Import String List.
From Verif Require Import Base.Ord Base.BTree Model.Schema.
Import ListNotations.
Local Open Scope string_scope.

(** field_dictionary.rs:4 *)
Definition EVENT_OUTCOME : string := "event.outcome".
(** field_dictionary.rs:6 *)
Definition EVENT_ACTION : string := "event.action".
(** field_dictionary.rs:8 *)
Definition EVENT_CATEGORY : string := "event.category".
(** field_dictionary.rs:10 *)
Definition EVENT_CODE : string := "event.code".
(** field_dictionary.rs:12 *)
Definition USER_NAME : string := "user.name".
(** field_dictionary.rs:13 *)
Definition USER_DOMAIN : string := "user.domain".
(** field_dictionary.rs:14 *)
Definition SOURCE_IP : string := "source.ip".
(** field_dictionary.rs:15 *)
Definition SOURCE_PORT : string := "source.port".
(** field_dictionary.rs:17 *)
Definition SOURCE_BYTES : string := "source.bytes".
(** field_dictionary.rs:18 *)
Definition DESTINATION_IP : string := "destination.ip".
(** field_dictionary.rs:19 *)
Definition DESTINATION_PORT : string := "destination.port".
(** field_dictionary.rs:22 *)
Definition DESTINATION_BYTES : string := "destination.bytes".
(** field_dictionary.rs:24 *)
Definition NETWORK_TRANSPORT : string := "network.transport".
(** field_dictionary.rs:25 *)
Definition NETWORK_PROTOCOL : string := "network.protocol".
(** field_dictionary.rs:26 *)
Definition NETWORK_DURATION : string := "network.duration".
(** field_dictionary.rs:28 *)
Definition IN_INTERFACE : string := "observer.ingress.interface".
(** field_dictionary.rs:29 *)
Definition OUT_INTERFACE : string := "observer.egress.interface".
(** field_dictionary.rs:31 *)
Definition OBSERVER_IP : string := "observer.ip".
(** field_dictionary.rs:32 *)
Definition OBSERVER_NAME : string := "observer.name".
(** field_dictionary.rs:34 *)
Definition URL_FULL : string := "url.full".
(** field_dictionary.rs:35 *)
Definition URL_DOMAIN : string := "url.domain".
(** field_dictionary.rs:36 *)
Definition URL_PATH : string := "url.path".
(** field_dictionary.rs:37 *)
Definition URL_QUERY : string := "url.query".
(** field_dictionary.rs:39 *)
Definition HTTP_REQUEST_METHOD : string := "http.request.method".
(** field_dictionary.rs:40 *)
Definition HTTP_RESPONSE_MIME_TYPE : string := "http.response.mime_type".
(** field_dictionary.rs:41 *)
Definition HTTP_RESPONSE_STATUS_CODE : string := "http.response.status_code".
(** field_dictionary.rs:43 *)
Definition RULE_NAME : string := "rule.name".
(** field_dictionary.rs:44 *)
Definition RULE_CATEGORY : string := "rule.category".
(** field_dictionary.rs:45 *)
Definition RULE_ID : string := "rule.id".
(** field_dictionary.rs:47 *)
Definition DNS_OP_CODE : string := "dns.op_code".
(** field_dictionary.rs:48 *)
Definition DNS_ANSWER_CLASS : string := "dns.answer.class".
(** field_dictionary.rs:49 *)
Definition DNS_ANSWER_NAME : string := "dns.answer.name".
(** field_dictionary.rs:50 *)
Definition DNS_ANSWER_TYPE : string := "dns.answer.type".
(** field_dictionary.rs:51 *)
Definition DNS_ANSWER_TTL : string := "dns.answer.ttl".
(** field_dictionary.rs:52 *)
Definition DNS_ANSWER_DATA : string := "dns.answer.data".
(** field_dictionary.rs:53 *)
Definition DNS_QUESTION_CLASS : string := "dns.question.class".
(** field_dictionary.rs:54 *)
Definition DNS_QUESTION_NAME : string := "dns.question.name".
(** field_dictionary.rs:55 *)
Definition DNS_QUESTION_TYPE : string := "dns.question.type".
(** field_dictionary.rs:56 *)
Definition DNS_RESOLVED_IP : string := "dns.resolved_ip".
(** field_dictionary.rs:58 *)
Definition DHCP_RECORD_TYPE : string := "dhcp.type".
(** field_dictionary.rs:60 *)
Definition TAG_REPROCESS : string := "reprocess_log".
(** field_dictionary.rs:63 *)
Definition WAL_ID : string := "wal_id".

(** base_schema.rs:89-96 *)
Definition opt_web_protocol : bt string string := bt_of_list [
  ("HTTP", "HyperText Transfer Protocol. HTTP is the underlying protocol used by the World Wide Web. ");
  ("HTTPS", "Secured HTTP protocol");
  ("FTP", "The File Transfer Protocol is a standard communication protocol used for the transfer of computer files from a server to a client on a computer network.");
  ("WS", "WebSocket is a computer communications protocol, providing full-duplex communication channels over a single TCP connection.");
  ("WSS", "Secured WebSocket protocol")
].
(** base_schema.rs:98-190 *)
Definition opt_web_cat : bt string string := bt_of_list [
  ("Abortion", "Abortion");
  ("MatureContent", "MatureContent");
  ("Alcohol", "Alcohol");
  ("AlternativeSpirituality", "AlternativeSpirituality");
  ("ArtCulture", "ArtCulture");
  ("Auctions", "Auctions");
  ("AudioVideoClips", "AudioVideoClips");
  ("Trading", "Trading");
  ("Economy", "Economy");
  ("Charitable", "Charitable");
  ("OnlineChat", "OnlineChat");
  ("ChildPornography", "ChildPornography");
  ("CloudInfrastructure", "CloudInfrastructure");
  ("CompromisedSites", "CompromisedSites");
  ("InformationSecurity", "InformationSecurity");
  ("ContentDeliveryNetworks", "ContentDeliveryNetworks");
  ("ControlledSubstances", "ControlledSubstances");
  ("Cryptocurrency", "Cryptocurrency");
  ("DynamicDNSHost", "DynamicDNSHost");
  ("ECardInvitations", "ECardInvitations");
  ("Education", "Education");
  ("Email", "Email");
  ("EmailMarketing", "EmailMarketing");
  ("Entertainment", "Entertainment");
  ("FileStorage", "FileStorage");
  ("Finance", "Finance");
  ("ForKids", "ForKids");
  ("Gambling", "Gambling");
  ("Games", "Games");
  ("Gore", "Gore");
  ("Government", "Government");
  ("Hacking", "Hacking");
  ("Health", "Health");
  ("HumorJokes", "HumorJokes");
  ("Informational", "Informational");
  ("InternetConnectedDevices", "InternetConnectedDevices");
  ("InternetTelephony", "InternetTelephony");
  ("IntimateApparel", "IntimateApparel");
  ("JobSearch", "JobSearch");
  ("MaliciousOutboundDataBotnets", "MaliciousOutboundDataBotnets");
  ("MaliciousSources", "MaliciousSources");
  ("Marijuana", "Marijuana");
  ("MediaSharing", "MediaSharing");
  ("Military", "Military");
  ("PotentiallyAdult", "PotentiallyAdult");
  ("News", "News");
  ("Forums", "Forums");
  ("Nudity", "Nudity");
  ("BusinessApplications", "BusinessApplications");
  ("OnlineMeetings", "OnlineMeetings");
  ("P2P", "P2P");
  ("PersonalSites", "PersonalSites");
  ("PersonalsDating", "PersonalsDating");
  ("Phishing", "Phishing");
  ("CopyrightConcerns", "CopyrightConcerns");
  ("Placeholders", "Placeholders");
  ("PoliticalAdvocacy", "PoliticalAdvocacy");
  ("Pornography", "Pornography");
  ("PotentiallyUnwantedSoftware", "PotentiallyUnwantedSoftware");
  ("ProxyAvoidance", "ProxyAvoidance");
  ("RadioAudioStreams", "RadioAudioStreams");
  ("RealEstate", "RealEstate");
  ("Reference", "Reference");
  ("Religion", "Religion");
  ("RemoteAccess", "RemoteAccess");
  ("Restaurants", "Restaurants");
  ("QuestionableLegality", "QuestionableLegality");
  ("SearchEngines", "SearchEngines");
  ("SexEducation", "SexEducation");
  ("SexualExpression", "SexualExpression");
  ("Shopping", "Shopping");
  ("SocialNetworking", "SocialNetworking");
  ("DailyLiving", "DailyLiving");
  ("SoftwareDownloads", "SoftwareDownloads");
  ("Spam", "Spam");
  ("Sports", "Sports");
  ("Suspicious", "Suspicious");
  ("Technology", "Technology");
  ("Tobacco", "Tobacco");
  ("Translation", "Translation");
  ("Travel", "Travel");
  ("VideoStreams", "VideoStreams");
  ("Uncategorized", "Uncategorized");
  ("URLShorteners", "URLShorteners");
  ("Vehicles", "Vehicles");
  ("Violence", "Violence");
  ("Weapons", "Weapons");
  ("WebAds", "WebAds");
  ("WebHosting", "WebHosting");
  ("WebInfrastructure", "WebInfrastructure")
].
(** base_schema.rs:196-338 *)
Definition opt_net_protocol : bt string string := bt_of_list [
  ("HOPOPT", "HOPOPT");
  ("ICMP", "ICMP");
  ("IGMP", "IGMP");
  ("GGP", "GGP");
  ("IPV4", "IPV4");
  ("ST", "ST");
  ("TCP", "TCP");
  ("CBT", "CBT");
  ("EGP", "EGP");
  ("IGP", "IGP");
  ("BBN_RCC_MON", "BBN_RCC_MON");
  ("NVP_II", "NVP_II");
  ("PUP", "PUP");
  ("ARGUS", "ARGUS");
  ("EMCON", "EMCON");
  ("XNET", "XNET");
  ("CHAOS", "CHAOS");
  ("UDP", "UDP");
  ("MUX", "MUX");
  ("DCN_MEAS", "DCN_MEAS");
  ("HMP", "HMP");
  ("PRM", "PRM");
  ("XNS_IDP", "XNS_IDP");
  ("TRUNK_1", "TRUNK_1");
  ("TRUNK_2", "TRUNK_2");
  ("LEAF_1", "LEAF_1");
  ("LEAF_2", "LEAF_2");
  ("RDP", "RDP");
  ("IRTP", "IRTP");
  ("ISO_TP4", "ISO_TP4");
  ("NETBLT", "NETBLT");
  ("MFE_NSP", "MFE_NSP");
  ("MERIT_INP", "MERIT_INP");
  ("DCCP", "DCCP");
  ("ThirdPC", "ThirdPC");
  ("IDPR", "IDPR");
  ("XTP", "XTP");
  ("DDP", "DDP");
  ("IDPR_CMTP", "IDPR_CMTP");
  ("TPpp", "TPpp");
  ("IL", "IL");
  ("IPV6", "IPV6");
  ("SDRP", "SDRP");
  ("IPV6_ROUTE", "IPV6_ROUTE");
  ("IPV6_FRAG", "IPV6_FRAG");
  ("IDRP", "IDRP");
  ("RSVP", "RSVP");
  ("GRE", "GRE");
  ("DSR", "DSR");
  ("BNA", "BNA");
  ("ESP", "ESP");
  ("AH", "AH");
  ("I_NLSP", "I_NLSP");
  ("SWIPE", "SWIPE");
  ("NARP", "NARP");
  ("MOBILE", "MOBILE");
  ("TLSP", "TLSP");
  ("SKIP", "SKIP");
  ("IPV6_ICMP", "IPV6_ICMP");
  ("IPV6_NONXT", "IPV6_NONXT");
  ("IPV6_OPTS", "IPV6_OPTS");
  ("CFTP", "CFTP");
  ("SAT_EXPAK", "SAT_EXPAK");
  ("KRYPTOLAN", "KRYPTOLAN");
  ("RVD", "RVD");
  ("IPPC", "IPPC");
  ("SAT_MON", "SAT_MON");
  ("VISA", "VISA");
  ("IPCV", "IPCV");
  ("CPNX", "CPNX");
  ("CPHB", "CPHB");
  ("WSN", "WSN");
  ("PVP", "PVP");
  ("BR_SAT_MON", "BR_SAT_MON");
  ("SUN_ND", "SUN_ND");
  ("WB_MON", "WB_MON");
  ("WB_EXPAK", "WB_EXPAK");
  ("ISO_IP", "ISO_IP");
  ("VMTP", "VMTP");
  ("SECURE_VMTP", "SECURE_VMTP");
  ("VINES", "VINES");
  ("TTP", "TTP");
  ("IPTM", "IPTM");
  ("NSFNET_IGP", "NSFNET_IGP");
  ("DGP", "DGP");
  ("TCF", "TCF");
  ("EIGRP", "EIGRP");
  ("OSPFIGP", "OSPFIGP");
  ("SPRITE_RPC", "SPRITE_RPC");
  ("LARP", "LARP");
  ("MTP", "MTP");
  ("AX_25", "AX_25");
  ("IPIP", "IPIP");
  ("MICP", "MICP");
  ("SCC_SP", "SCC_SP");
  ("ETHERIP", "ETHERIP");
  ("ENCAP", "ENCAP");
  ("GMTP", "GMTP");
  ("IFMP", "IFMP");
  ("PNNI", "PNNI");
  ("PIM", "PIM");
  ("ARIS", "ARIS");
  ("SCPS", "SCPS");
  ("QNX", "QNX");
  ("A_N", "A_N");
  ("IPCOMP", "IPCOMP");
  ("SNP", "SNP");
  ("COMPAQ_PEER", "COMPAQ_PEER");
  ("IPX_IN_IP", "IPX_IN_IP");
  ("VRRP", "VRRP");
  ("PGM", "PGM");
  ("L2TP", "L2TP");
  ("DDX", "DDX");
  ("IATP", "IATP");
  ("STP", "STP");
  ("SRP", "SRP");
  ("UTI", "UTI");
  ("SMP", "SMP");
  ("SM", "SM");
  ("PTP", "PTP");
  ("ISIS", "ISIS");
  ("FIRE", "FIRE");
  ("CRTP", "CRTP");
  ("CRUDP", "CRUDP");
  ("SSCOPMCE", "SSCOPMCE");
  ("IPLT", "IPLT");
  ("SPS", "SPS");
  ("PIPE", "PIPE");
  ("SCTP", "SCTP");
  ("FC", "FC");
  ("RSVP_E2E_IGNORE", "RSVP_E2E_IGNORE");
  ("MOBILITY", "MOBILITY");
  ("UDPLITE", "UDPLITE");
  ("MPLS_IN_IP", "MPLS_IN_IP");
  ("MANET", "MANET");
  ("HIP", "HIP");
  ("SHIM6", "SHIM6");
  ("WESP", "WESP");
  ("ROHC", "ROHC");
  ("ETHERNET", "ETHERNET");
  ("USE", "USE");
  ("RESERVED", "RESERVED");
  ("UNKNOWN", "UNKNOWN")
].
(** base_schema.rs:356-365 *)
Definition opt_http_request_method : bt string string := bt_of_list [
  ("GET", "The GET method requests that the target resource transfers a representation of its state.");
  ("HEAD", "The HEAD method requests that the target resource transfers a representation of its state, like for a GET request, but without the representation data enclosed in the response body.");
  ("POST", "The POST method requests that the target resource processes the representation enclosed in the request according to the semantics of the target resource.");
  ("PUT", "The PUT method requests that the target resource creates or updates its state with the state defined by the representation enclosed in the request.");
  ("PATCH", "The PATCH method requests that the target resource modifies its state according to the partial update defined in the representation enclosed in the request.");
  ("OPTIONS", "The OPTIONS method requests that the target resource transfers the HTTP methods that it supports.");
  ("CONNECT", "The CONNECT method request that the intermediary establishes a TCP/IP tunnel to the origin server identified by the request target.")
].
(** base_schema.rs:395-422 *)
Definition opt_event_outcome : bt string string := bt_of_list [
  ("SUCCESS", "Login success");
  ("FAIL", "Login failed");
  ("LOCKOUT", "Account locked out");
  ("ESTABLISH", "Pre authentication phase: trying to connect");
  ("BLOCK", "Connection was blocked");
  ("ALLOW", "Connection was allowed");
  ("END", "Connection ended, the event contains information about bytes sended/received");
  ("STATS", "The connection is still ongoing, but we log statistics about it");
  ("OPEN", "Oppened connection. Later can be dropped due to policy settings. Ej: Sonicwall or Firepower have this behavior.");
  ("UNKNOWN", "Unknow connection state.");
  ("DETECTED", "The attack has not been prevented and may affect systems");
  ("BLOCKED", "The attack was prevented");
  ("MONITOR", "The attack was not prevented but it does not affect assets");
  ("IMPACTED", "The attack has not been prevented and has affected assets")
].
(** base_schema.rs:5-432 [get_default_schema] *)
Definition get_default_schema : schema := mkSchema (bt_of_list [
  ("origin", FTText "IP or Hostname of the server that sent the log");
  ("tenant", FTText "Customer name for SOC environments. Ex: Contoso");
  ("product", FTText "Name of the product for wich the log belongs. Ex: ASA");
  ("service", FTText "Subset of the product logs. Like a OS that can have multiple programs running inside generating multiple logs.");
  ("category", FTText "Category of the device: Firewall, web, antivirus");
  ("vendor", FTText "Company that created the product. Ex: Cisco");
  ("event.type", FTText "uSIEM log type: SiemEvent");
  ("tags", FTText "Tags to better describe the event");
  ("message", FTText "Original log message including syslog header");
  ("event_received", FTDate "Timestamp at witch the log arrived  ");
  ("event_created", FTDate "Timestamp at witch the log was generated");
  ("host.hostname", FTText "Hostname of the host");
  ("server.hostname", FTText "Hostname of the server");
  ("client.hostname", FTText "Hostname of the client");
  ("client.ip", FTIp "Ip of the client");
  ("client.mac", FTText "MAC address of the client");
  (DHCP_RECORD_TYPE, FTText "DHCP record type");
  ("dhcp.requested_ip", FTIp "DHCP requested IP");
  (USER_NAME, FTText "User name");
  (USER_DOMAIN, FTText "Domain of the user");
  ("source.user.name", FTText "Username of the initiator of an action");
  ("source.user.domain", FTText "Domain of the initiator of an action");
  (SOURCE_IP, FTIp "IP of the initiator of a connection");
  (DESTINATION_IP, FTIp "IP of the target of a conector");
  (SOURCE_PORT, FTNumeric "Port of the source");
  (DESTINATION_PORT, FTNumeric "Port of the destination");
  (SOURCE_BYTES, FTNumeric "Bytes sent from the source to the destination.");
  (DESTINATION_BYTES, FTNumeric "Bytes sent from the destination to the source");
  (IN_INTERFACE, FTText "Name of the interface receiving the connection");
  (OUT_INTERFACE, FTText "Name of the egress interface");
  (RULE_CATEGORY, FTTextOptions opt_web_cat "Category of the rule");
  (NETWORK_TRANSPORT, FTTextOptions opt_net_protocol "Network transport protocol: TCP, UDP...");
  (NETWORK_PROTOCOL, FTTextOptions opt_web_protocol "Network protocol: http, ftp, snmp...");
  ("source.address", FTText "An IP, a domain or a unix socket.");
  (HTTP_RESPONSE_STATUS_CODE, FTNumeric "HTTP Status code: 404, 200...");
  (HTTP_REQUEST_METHOD, FTTextOptions opt_http_request_method "HTTP Request method: get, post...");
  (URL_FULL, FTText "Full url");
  (URL_DOMAIN, FTText "Domain of the url");
  (HTTP_RESPONSE_MIME_TYPE, FTText "HTTP response mime type");
  (RULE_NAME, FTText "Name of the rule");
  (DNS_OP_CODE, FTText "Operation code in DNS");
  (DNS_ANSWER_NAME, FTText "DNS answer name");
  (DNS_ANSWER_TYPE, FTText "DNS answer type");
  (DNS_QUESTION_NAME, FTText "DNS question name");
  (DNS_QUESTION_TYPE, FTText "DNS question type");
  (RULE_ID, FTText "Identifier of the rule");
  (URL_PATH, FTText "URL path: /api/v1");
  (URL_QUERY, FTText "URL query: ?a=b&c=d");
  ("url.extension", FTText "URL extension: exe, html");
  (NETWORK_DURATION, FTDecimal "Duration of the communication");
  ("user_agent.original", FTText "Full user agent");
  (EVENT_OUTCOME, FTTextOptions opt_event_outcome "Outcome of the event")
]) false None.
