(** The texts that stand for the variants of the enumerations of structured events: each variant is shown under its own
    name.  Generated by tools/gen_event_names.py from the enum declarations in src/events (not from any printing code);
    variants that carry a text are not listed. *)
From Coq Require Import String List.
From Verif Require Import Model.EventEnums Model.Events.
Import ListNotations.
Local Open Scope string_scope.

(** protocol.rs [NetworkProtocol]; with a text: OTHER *)
Definition net_protocol_names : list (net_protocol * string) := [
  (NP_HOPOPT, "HOPOPT"); (NP_ICMP, "ICMP"); (NP_IGMP, "IGMP"); (NP_GGP, "GGP"); (NP_IPV4, "IPV4");
  (NP_ST, "ST"); (NP_TCP, "TCP"); (NP_CBT, "CBT"); (NP_EGP, "EGP"); (NP_IGP, "IGP");
  (NP_BBN_RCC_MON, "BBN_RCC_MON"); (NP_NVP_II, "NVP_II"); (NP_PUP, "PUP"); (NP_ARGUS, "ARGUS"); (NP_EMCON, "EMCON");
  (NP_XNET, "XNET"); (NP_CHAOS, "CHAOS"); (NP_UDP, "UDP"); (NP_MUX, "MUX"); (NP_DCN_MEAS, "DCN_MEAS");
  (NP_HMP, "HMP"); (NP_PRM, "PRM"); (NP_XNS_IDP, "XNS_IDP"); (NP_TRUNK_1, "TRUNK_1"); (NP_TRUNK_2, "TRUNK_2");
  (NP_LEAF_1, "LEAF_1"); (NP_LEAF_2, "LEAF_2"); (NP_RDP, "RDP"); (NP_IRTP, "IRTP"); (NP_ISO_TP4, "ISO_TP4");
  (NP_NETBLT, "NETBLT"); (NP_MFE_NSP, "MFE_NSP"); (NP_MERIT_INP, "MERIT_INP"); (NP_DCCP, "DCCP"); (NP_ThirdPC, "ThirdPC");
  (NP_IDPR, "IDPR"); (NP_XTP, "XTP"); (NP_DDP, "DDP"); (NP_IDPR_CMTP, "IDPR_CMTP"); (NP_TPpp, "TPpp");
  (NP_IL, "IL"); (NP_IPV6, "IPV6"); (NP_SDRP, "SDRP"); (NP_IPV6_ROUTE, "IPV6_ROUTE"); (NP_IPV6_FRAG, "IPV6_FRAG");
  (NP_IDRP, "IDRP"); (NP_RSVP, "RSVP"); (NP_GRE, "GRE"); (NP_DSR, "DSR"); (NP_BNA, "BNA");
  (NP_ESP, "ESP"); (NP_AH, "AH"); (NP_I_NLSP, "I_NLSP"); (NP_SWIPE, "SWIPE"); (NP_NARP, "NARP");
  (NP_MOBILE, "MOBILE"); (NP_TLSP, "TLSP"); (NP_SKIP, "SKIP"); (NP_IPV6_ICMP, "IPV6_ICMP"); (NP_IPV6_NONXT, "IPV6_NONXT");
  (NP_IPV6_OPTS, "IPV6_OPTS"); (NP_CFTP, "CFTP"); (NP_SAT_EXPAK, "SAT_EXPAK"); (NP_KRYPTOLAN, "KRYPTOLAN"); (NP_RVD, "RVD");
  (NP_IPPC, "IPPC"); (NP_SAT_MON, "SAT_MON"); (NP_VISA, "VISA"); (NP_IPCV, "IPCV"); (NP_CPNX, "CPNX");
  (NP_CPHB, "CPHB"); (NP_WSN, "WSN"); (NP_PVP, "PVP"); (NP_BR_SAT_MON, "BR_SAT_MON"); (NP_SUN_ND, "SUN_ND");
  (NP_WB_MON, "WB_MON"); (NP_WB_EXPAK, "WB_EXPAK"); (NP_ISO_IP, "ISO_IP"); (NP_VMTP, "VMTP"); (NP_SECURE_VMTP, "SECURE_VMTP");
  (NP_VINES, "VINES"); (NP_TTP, "TTP"); (NP_IPTM, "IPTM"); (NP_NSFNET_IGP, "NSFNET_IGP"); (NP_DGP, "DGP");
  (NP_TCF, "TCF"); (NP_EIGRP, "EIGRP"); (NP_OSPFIGP, "OSPFIGP"); (NP_SPRITE_RPC, "SPRITE_RPC"); (NP_LARP, "LARP");
  (NP_MTP, "MTP"); (NP_AX_25, "AX_25"); (NP_IPIP, "IPIP"); (NP_MICP, "MICP"); (NP_SCC_SP, "SCC_SP");
  (NP_ETHERIP, "ETHERIP"); (NP_ENCAP, "ENCAP"); (NP_GMTP, "GMTP"); (NP_IFMP, "IFMP"); (NP_PNNI, "PNNI");
  (NP_PIM, "PIM"); (NP_ARIS, "ARIS"); (NP_SCPS, "SCPS"); (NP_QNX, "QNX"); (NP_A_N, "A_N");
  (NP_IPCOMP, "IPCOMP"); (NP_SNP, "SNP"); (NP_COMPAQ_PEER, "COMPAQ_PEER"); (NP_IPX_IN_IP, "IPX_IN_IP"); (NP_VRRP, "VRRP");
  (NP_PGM, "PGM"); (NP_L2TP, "L2TP"); (NP_DDX, "DDX"); (NP_IATP, "IATP"); (NP_STP, "STP");
  (NP_SRP, "SRP"); (NP_UTI, "UTI"); (NP_SMP, "SMP"); (NP_SM, "SM"); (NP_PTP, "PTP");
  (NP_ISIS, "ISIS"); (NP_FIRE, "FIRE"); (NP_CRTP, "CRTP"); (NP_CRUDP, "CRUDP"); (NP_SSCOPMCE, "SSCOPMCE");
  (NP_IPLT, "IPLT"); (NP_SPS, "SPS"); (NP_PIPE, "PIPE"); (NP_SCTP, "SCTP"); (NP_FC, "FC");
  (NP_RSVP_E2E_IGNORE, "RSVP_E2E_IGNORE"); (NP_MOBILITY, "MOBILITY"); (NP_UDPLITE, "UDPLITE"); (NP_MPLS_IN_IP, "MPLS_IN_IP"); (NP_MANET, "MANET");
  (NP_HIP, "HIP"); (NP_SHIM6, "SHIM6"); (NP_WESP, "WESP"); (NP_ROHC, "ROHC"); (NP_ETHERNET, "ETHERNET");
  (NP_USE, "USE"); (NP_RESERVED, "RESERVED"); (NP_UNKNOWN, "UNKNOWN")].

(** webproxy.rs [WebProxyRuleCategory]; with a text: Others *)
Definition web_category_names : list (web_category * string) := [
  (WC_Abortion, "Abortion"); (WC_MatureContent, "MatureContent"); (WC_Alcohol, "Alcohol"); (WC_AlternativeSpirituality, "AlternativeSpirituality"); (WC_ArtCulture, "ArtCulture");
  (WC_Auctions, "Auctions"); (WC_AudioVideoClips, "AudioVideoClips"); (WC_Trading, "Trading"); (WC_Economy, "Economy"); (WC_Charitable, "Charitable");
  (WC_OnlineChat, "OnlineChat"); (WC_ChildPornography, "ChildPornography"); (WC_CloudInfrastructure, "CloudInfrastructure"); (WC_CompromisedSites, "CompromisedSites"); (WC_InformationSecurity, "InformationSecurity");
  (WC_ContentDeliveryNetworks, "ContentDeliveryNetworks"); (WC_ControlledSubstances, "ControlledSubstances"); (WC_Cryptocurrency, "Cryptocurrency"); (WC_DynamicDNSHost, "DynamicDNSHost"); (WC_ECardInvitations, "ECardInvitations");
  (WC_Education, "Education"); (WC_Email, "Email"); (WC_EmailMarketing, "EmailMarketing"); (WC_Entertainment, "Entertainment"); (WC_FileStorage, "FileStorage");
  (WC_Finance, "Finance"); (WC_ForKids, "ForKids"); (WC_Gambling, "Gambling"); (WC_Games, "Games"); (WC_Gore, "Gore");
  (WC_Government, "Government"); (WC_Hacking, "Hacking"); (WC_Health, "Health"); (WC_HumorJokes, "HumorJokes"); (WC_Informational, "Informational");
  (WC_InternetConnectedDevices, "InternetConnectedDevices"); (WC_InternetTelephony, "InternetTelephony"); (WC_IntimateApparel, "IntimateApparel"); (WC_JobSearch, "JobSearch"); (WC_MaliciousOutboundDataBotnets, "MaliciousOutboundDataBotnets");
  (WC_MaliciousSources, "MaliciousSources"); (WC_Marijuana, "Marijuana"); (WC_MediaSharing, "MediaSharing"); (WC_Military, "Military"); (WC_PotentiallyAdult, "PotentiallyAdult");
  (WC_News, "News"); (WC_Forums, "Forums"); (WC_Nudity, "Nudity"); (WC_BusinessApplications, "BusinessApplications"); (WC_OnlineMeetings, "OnlineMeetings");
  (WC_P2P, "P2P"); (WC_PersonalSites, "PersonalSites"); (WC_PersonalsDating, "PersonalsDating"); (WC_Phishing, "Phishing"); (WC_CopyrightConcerns, "CopyrightConcerns");
  (WC_Placeholders, "Placeholders"); (WC_PoliticalAdvocacy, "PoliticalAdvocacy"); (WC_Pornography, "Pornography"); (WC_PotentiallyUnwantedSoftware, "PotentiallyUnwantedSoftware"); (WC_ProxyAvoidance, "ProxyAvoidance");
  (WC_RadioAudioStreams, "RadioAudioStreams"); (WC_RealEstate, "RealEstate"); (WC_Reference, "Reference"); (WC_Religion, "Religion"); (WC_RemoteAccess, "RemoteAccess");
  (WC_Restaurants, "Restaurants"); (WC_QuestionableLegality, "QuestionableLegality"); (WC_SearchEngines, "SearchEngines"); (WC_SexEducation, "SexEducation"); (WC_SexualExpression, "SexualExpression");
  (WC_Shopping, "Shopping"); (WC_SocialNetworking, "SocialNetworking"); (WC_DailyLiving, "DailyLiving"); (WC_SoftwareDownloads, "SoftwareDownloads"); (WC_Spam, "Spam");
  (WC_Sports, "Sports"); (WC_Suspicious, "Suspicious"); (WC_Technology, "Technology"); (WC_Tobacco, "Tobacco"); (WC_Translation, "Translation");
  (WC_Travel, "Travel"); (WC_VideoStreams, "VideoStreams"); (WC_Uncategorized, "Uncategorized"); (WC_URLShorteners, "URLShorteners"); (WC_Vehicles, "Vehicles");
  (WC_Violence, "Violence"); (WC_Weapons, "Weapons"); (WC_WebAds, "WebAds"); (WC_WebHosting, "WebHosting"); (WC_WebInfrastructure, "WebInfrastructure")].

(** intrusion.rs [IntrusionCategory] *)
Definition intrusion_category_names : list (intrusion_category * string) := [
  (IC_XSS, "XSS"); (IC_SQL_INJECTION, "SQL_INJECTION"); (IC_PATH_TRANSVERSAL, "PATH_TRANSVERSAL"); (IC_WEB_ATTACK, "WEB_ATTACK"); (IC_DOS, "DOS");
  (IC_SURVEILLANCE, "SURVEILLANCE"); (IC_TROJAN, "TROJAN"); (IC_VIRUS, "VIRUS"); (IC_SPYWARE, "SPYWARE"); (IC_RAT_TOOL, "RAT_TOOL");
  (IC_RANSOMWARE, "RANSOMWARE"); (IC_HACKTOOL, "HACKTOOL"); (IC_PROXY_AVOIDANCE, "PROXY_AVOIDANCE"); (IC_REMOTE_EXPLOIT, "REMOTE_EXPLOIT"); (IC_LOCAL_EXPLOIT, "LOCAL_EXPLOIT");
  (IC_BOTNET, "BOTNET"); (IC_SPAM, "SPAM"); (IC_PHISHING, "PHISHING"); (IC_CEO_FRAUD, "CEO_FRAUD"); (IC_SCAM, "SCAM");
  (IC_DATA_THEFT, "DATA_THEFT"); (IC_BRUTE_FORCE, "BRUTE_FORCE"); (IC_MISCONFIGURATION, "MISCONFIGURATION"); (IC_AD_ATTACK, "AD_ATTACK"); (IC_UNKNOWN, "UNKNOWN");
  (IC_INFORMATION_LEAKAGE, "INFORMATION_LEAKAGE"); (IC_ANOMALY, "ANOMALY"); (IC_SESSION_FIXATION, "SESSION_FIXATION"); (IC_PROTOCOL_ATTACK, "PROTOCOL_ATTACK"); (IC_REPUTATION, "REPUTATION")].

(** firewall.rs [FirewallOutcome] *)
Definition fw_outcome_names : list (fw_outcome * string) := [
  (FO_BLOCK, "BLOCK"); (FO_ALLOW, "ALLOW"); (FO_END, "END"); (FO_STATS, "STATS"); (FO_OPEN, "OPEN");
  (FO_UNKNOWN, "UNKNOWN")].

(** dns.rs [DnsRecordType] *)
Definition dns_type_names : list (dns_type * string) := [
  (DT_A, "A"); (DT_AAAA, "AAAA"); (DT_CNAME, "CNAME"); (DT_MX, "MX"); (DT_NS, "NS");
  (DT_PTR, "PTR"); (DT_CERT, "CERT"); (DT_SRV, "SRV"); (DT_TXT, "TXT"); (DT_SOA, "SOA")].

(** dhcp.rs [DhcpRecordType] *)
Definition dhcp_type_names : list (dhcp_type * string) := [
  (DR_Request, "Request"); (DR_Assign, "Assign"); (DR_Release, "Release")].

(** webproxy.rs [WebProxyOutcome] *)
Definition web_outcome_names : list (web_outcome * string) := [
  (WO_BLOCK, "BLOCK"); (WO_ALLOW, "ALLOW"); (WO_UNKNOWN, "UNKNOWN")].

(** intrusion.rs [IntrusionOutcome] *)
Definition intrusion_outcome_names : list (intrusion_outcome * string) := [
  (IO_DETECTED, "DETECTED"); (IO_BLOCKED, "BLOCKED"); (IO_MONITOR, "MONITOR"); (IO_IMPACTED, "IMPACTED")].

(** auth.rs [LoginOutcome] *)
Definition login_outcome_names : list (login_outcome * string) := [
  (LO_SUCCESS, "SUCCESS"); (LO_FAIL, "FAIL"); (LO_LOCKOUT, "LOCKOUT"); (LO_ESTABLISH, "ESTABLISH")].

(** common.rs [HttpMethod]; with a text: UNKNOWN *)
Definition http_method_names : list (http_method * string) := [
  (HM_GET, "GET"); (HM_POST, "POST"); (HM_PUT, "PUT"); (HM_PATCH, "PATCH"); (HM_OPTIONS, "OPTIONS");
  (HM_CONNECT, "CONNECT"); (HM_HEAD, "HEAD"); (HM_UNDEFINED, "UNDEFINED")].

(** common.rs [WebProtocol]; with a text: UNKNOWN *)
Definition web_protocol_names : list (web_protocol * string) := [
  (WP_HTTP, "HTTP"); (WP_HTTPS, "HTTPS"); (WP_FTP, "FTP"); (WP_WS, "WS"); (WP_WSS, "WSS")].

