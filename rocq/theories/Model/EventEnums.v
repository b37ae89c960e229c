(** Generated by tools/gen_enums.py from src/events/protocol.rs, webproxy.rs, intrusion.rs. *)
From Coq Require Import String NArith List.
Import ListNotations.
Local Open Scope string_scope.

(** protocol.rs:7-152 [NetworkProtocol] *)
Inductive net_protocol :=
| NP_HOPOPT
| NP_ICMP
| NP_IGMP
| NP_GGP
| NP_IPV4
| NP_ST
| NP_TCP
| NP_CBT
| NP_EGP
| NP_IGP
| NP_BBN_RCC_MON
| NP_NVP_II
| NP_PUP
| NP_ARGUS
| NP_EMCON
| NP_XNET
| NP_CHAOS
| NP_UDP
| NP_MUX
| NP_DCN_MEAS
| NP_HMP
| NP_PRM
| NP_XNS_IDP
| NP_TRUNK_1
| NP_TRUNK_2
| NP_LEAF_1
| NP_LEAF_2
| NP_RDP
| NP_IRTP
| NP_ISO_TP4
| NP_NETBLT
| NP_MFE_NSP
| NP_MERIT_INP
| NP_DCCP
| NP_ThirdPC
| NP_IDPR
| NP_XTP
| NP_DDP
| NP_IDPR_CMTP
| NP_TPpp
| NP_IL
| NP_IPV6
| NP_SDRP
| NP_IPV6_ROUTE
| NP_IPV6_FRAG
| NP_IDRP
| NP_RSVP
| NP_GRE
| NP_DSR
| NP_BNA
| NP_ESP
| NP_AH
| NP_I_NLSP
| NP_SWIPE
| NP_NARP
| NP_MOBILE
| NP_TLSP
| NP_SKIP
| NP_IPV6_ICMP
| NP_IPV6_NONXT
| NP_IPV6_OPTS
| NP_CFTP
| NP_SAT_EXPAK
| NP_KRYPTOLAN
| NP_RVD
| NP_IPPC
| NP_SAT_MON
| NP_VISA
| NP_IPCV
| NP_CPNX
| NP_CPHB
| NP_WSN
| NP_PVP
| NP_BR_SAT_MON
| NP_SUN_ND
| NP_WB_MON
| NP_WB_EXPAK
| NP_ISO_IP
| NP_VMTP
| NP_SECURE_VMTP
| NP_VINES
| NP_TTP
| NP_IPTM
| NP_NSFNET_IGP
| NP_DGP
| NP_TCF
| NP_EIGRP
| NP_OSPFIGP
| NP_SPRITE_RPC
| NP_LARP
| NP_MTP
| NP_AX_25
| NP_IPIP
| NP_MICP
| NP_SCC_SP
| NP_ETHERIP
| NP_ENCAP
| NP_GMTP
| NP_IFMP
| NP_PNNI
| NP_PIM
| NP_ARIS
| NP_SCPS
| NP_QNX
| NP_A_N
| NP_IPCOMP
| NP_SNP
| NP_COMPAQ_PEER
| NP_IPX_IN_IP
| NP_VRRP
| NP_PGM
| NP_L2TP
| NP_DDX
| NP_IATP
| NP_STP
| NP_SRP
| NP_UTI
| NP_SMP
| NP_SM
| NP_PTP
| NP_ISIS
| NP_FIRE
| NP_CRTP
| NP_CRUDP
| NP_SSCOPMCE
| NP_IPLT
| NP_SPS
| NP_PIPE
| NP_SCTP
| NP_FC
| NP_RSVP_E2E_IGNORE
| NP_MOBILITY
| NP_UDPLITE
| NP_MPLS_IN_IP
| NP_MANET
| NP_HIP
| NP_SHIM6
| NP_WESP
| NP_ROHC
| NP_ETHERNET
| NP_USE
| NP_RESERVED
| NP_OTHER (s : string)
| NP_UNKNOWN.
(** Every variant without a payload *)
Definition net_protocol_all : list net_protocol := [
  NP_HOPOPT;
  NP_ICMP;
  NP_IGMP;
  NP_GGP;
  NP_IPV4;
  NP_ST;
  NP_TCP;
  NP_CBT;
  NP_EGP;
  NP_IGP;
  NP_BBN_RCC_MON;
  NP_NVP_II;
  NP_PUP;
  NP_ARGUS;
  NP_EMCON;
  NP_XNET;
  NP_CHAOS;
  NP_UDP;
  NP_MUX;
  NP_DCN_MEAS;
  NP_HMP;
  NP_PRM;
  NP_XNS_IDP;
  NP_TRUNK_1;
  NP_TRUNK_2;
  NP_LEAF_1;
  NP_LEAF_2;
  NP_RDP;
  NP_IRTP;
  NP_ISO_TP4;
  NP_NETBLT;
  NP_MFE_NSP;
  NP_MERIT_INP;
  NP_DCCP;
  NP_ThirdPC;
  NP_IDPR;
  NP_XTP;
  NP_DDP;
  NP_IDPR_CMTP;
  NP_TPpp;
  NP_IL;
  NP_IPV6;
  NP_SDRP;
  NP_IPV6_ROUTE;
  NP_IPV6_FRAG;
  NP_IDRP;
  NP_RSVP;
  NP_GRE;
  NP_DSR;
  NP_BNA;
  NP_ESP;
  NP_AH;
  NP_I_NLSP;
  NP_SWIPE;
  NP_NARP;
  NP_MOBILE;
  NP_TLSP;
  NP_SKIP;
  NP_IPV6_ICMP;
  NP_IPV6_NONXT;
  NP_IPV6_OPTS;
  NP_CFTP;
  NP_SAT_EXPAK;
  NP_KRYPTOLAN;
  NP_RVD;
  NP_IPPC;
  NP_SAT_MON;
  NP_VISA;
  NP_IPCV;
  NP_CPNX;
  NP_CPHB;
  NP_WSN;
  NP_PVP;
  NP_BR_SAT_MON;
  NP_SUN_ND;
  NP_WB_MON;
  NP_WB_EXPAK;
  NP_ISO_IP;
  NP_VMTP;
  NP_SECURE_VMTP;
  NP_VINES;
  NP_TTP;
  NP_IPTM;
  NP_NSFNET_IGP;
  NP_DGP;
  NP_TCF;
  NP_EIGRP;
  NP_OSPFIGP;
  NP_SPRITE_RPC;
  NP_LARP;
  NP_MTP;
  NP_AX_25;
  NP_IPIP;
  NP_MICP;
  NP_SCC_SP;
  NP_ETHERIP;
  NP_ENCAP;
  NP_GMTP;
  NP_IFMP;
  NP_PNNI;
  NP_PIM;
  NP_ARIS;
  NP_SCPS;
  NP_QNX;
  NP_A_N;
  NP_IPCOMP;
  NP_SNP;
  NP_COMPAQ_PEER;
  NP_IPX_IN_IP;
  NP_VRRP;
  NP_PGM;
  NP_L2TP;
  NP_DDX;
  NP_IATP;
  NP_STP;
  NP_SRP;
  NP_UTI;
  NP_SMP;
  NP_SM;
  NP_PTP;
  NP_ISIS;
  NP_FIRE;
  NP_CRTP;
  NP_CRUDP;
  NP_SSCOPMCE;
  NP_IPLT;
  NP_SPS;
  NP_PIPE;
  NP_SCTP;
  NP_FC;
  NP_RSVP_E2E_IGNORE;
  NP_MOBILITY;
  NP_UDPLITE;
  NP_MPLS_IN_IP;
  NP_MANET;
  NP_HIP;
  NP_SHIM6;
  NP_WESP;
  NP_ROHC;
  NP_ETHERNET;
  NP_USE;
  NP_RESERVED;
  NP_UNKNOWN
].
(** protocol.rs:153-159 [Display] writes the [Debug] form: the name of the variant; [dbg] is the [Debug] form of a text. *)
Definition net_protocol_str (dbg : string -> string) (x : net_protocol) : string :=
  match x with
  | NP_HOPOPT => "HOPOPT"
  | NP_ICMP => "ICMP"
  | NP_IGMP => "IGMP"
  | NP_GGP => "GGP"
  | NP_IPV4 => "IPV4"
  | NP_ST => "ST"
  | NP_TCP => "TCP"
  | NP_CBT => "CBT"
  | NP_EGP => "EGP"
  | NP_IGP => "IGP"
  | NP_BBN_RCC_MON => "BBN_RCC_MON"
  | NP_NVP_II => "NVP_II"
  | NP_PUP => "PUP"
  | NP_ARGUS => "ARGUS"
  | NP_EMCON => "EMCON"
  | NP_XNET => "XNET"
  | NP_CHAOS => "CHAOS"
  | NP_UDP => "UDP"
  | NP_MUX => "MUX"
  | NP_DCN_MEAS => "DCN_MEAS"
  | NP_HMP => "HMP"
  | NP_PRM => "PRM"
  | NP_XNS_IDP => "XNS_IDP"
  | NP_TRUNK_1 => "TRUNK_1"
  | NP_TRUNK_2 => "TRUNK_2"
  | NP_LEAF_1 => "LEAF_1"
  | NP_LEAF_2 => "LEAF_2"
  | NP_RDP => "RDP"
  | NP_IRTP => "IRTP"
  | NP_ISO_TP4 => "ISO_TP4"
  | NP_NETBLT => "NETBLT"
  | NP_MFE_NSP => "MFE_NSP"
  | NP_MERIT_INP => "MERIT_INP"
  | NP_DCCP => "DCCP"
  | NP_ThirdPC => "ThirdPC"
  | NP_IDPR => "IDPR"
  | NP_XTP => "XTP"
  | NP_DDP => "DDP"
  | NP_IDPR_CMTP => "IDPR_CMTP"
  | NP_TPpp => "TPpp"
  | NP_IL => "IL"
  | NP_IPV6 => "IPV6"
  | NP_SDRP => "SDRP"
  | NP_IPV6_ROUTE => "IPV6_ROUTE"
  | NP_IPV6_FRAG => "IPV6_FRAG"
  | NP_IDRP => "IDRP"
  | NP_RSVP => "RSVP"
  | NP_GRE => "GRE"
  | NP_DSR => "DSR"
  | NP_BNA => "BNA"
  | NP_ESP => "ESP"
  | NP_AH => "AH"
  | NP_I_NLSP => "I_NLSP"
  | NP_SWIPE => "SWIPE"
  | NP_NARP => "NARP"
  | NP_MOBILE => "MOBILE"
  | NP_TLSP => "TLSP"
  | NP_SKIP => "SKIP"
  | NP_IPV6_ICMP => "IPV6_ICMP"
  | NP_IPV6_NONXT => "IPV6_NONXT"
  | NP_IPV6_OPTS => "IPV6_OPTS"
  | NP_CFTP => "CFTP"
  | NP_SAT_EXPAK => "SAT_EXPAK"
  | NP_KRYPTOLAN => "KRYPTOLAN"
  | NP_RVD => "RVD"
  | NP_IPPC => "IPPC"
  | NP_SAT_MON => "SAT_MON"
  | NP_VISA => "VISA"
  | NP_IPCV => "IPCV"
  | NP_CPNX => "CPNX"
  | NP_CPHB => "CPHB"
  | NP_WSN => "WSN"
  | NP_PVP => "PVP"
  | NP_BR_SAT_MON => "BR_SAT_MON"
  | NP_SUN_ND => "SUN_ND"
  | NP_WB_MON => "WB_MON"
  | NP_WB_EXPAK => "WB_EXPAK"
  | NP_ISO_IP => "ISO_IP"
  | NP_VMTP => "VMTP"
  | NP_SECURE_VMTP => "SECURE_VMTP"
  | NP_VINES => "VINES"
  | NP_TTP => "TTP"
  | NP_IPTM => "IPTM"
  | NP_NSFNET_IGP => "NSFNET_IGP"
  | NP_DGP => "DGP"
  | NP_TCF => "TCF"
  | NP_EIGRP => "EIGRP"
  | NP_OSPFIGP => "OSPFIGP"
  | NP_SPRITE_RPC => "SPRITE_RPC"
  | NP_LARP => "LARP"
  | NP_MTP => "MTP"
  | NP_AX_25 => "AX_25"
  | NP_IPIP => "IPIP"
  | NP_MICP => "MICP"
  | NP_SCC_SP => "SCC_SP"
  | NP_ETHERIP => "ETHERIP"
  | NP_ENCAP => "ENCAP"
  | NP_GMTP => "GMTP"
  | NP_IFMP => "IFMP"
  | NP_PNNI => "PNNI"
  | NP_PIM => "PIM"
  | NP_ARIS => "ARIS"
  | NP_SCPS => "SCPS"
  | NP_QNX => "QNX"
  | NP_A_N => "A_N"
  | NP_IPCOMP => "IPCOMP"
  | NP_SNP => "SNP"
  | NP_COMPAQ_PEER => "COMPAQ_PEER"
  | NP_IPX_IN_IP => "IPX_IN_IP"
  | NP_VRRP => "VRRP"
  | NP_PGM => "PGM"
  | NP_L2TP => "L2TP"
  | NP_DDX => "DDX"
  | NP_IATP => "IATP"
  | NP_STP => "STP"
  | NP_SRP => "SRP"
  | NP_UTI => "UTI"
  | NP_SMP => "SMP"
  | NP_SM => "SM"
  | NP_PTP => "PTP"
  | NP_ISIS => "ISIS"
  | NP_FIRE => "FIRE"
  | NP_CRTP => "CRTP"
  | NP_CRUDP => "CRUDP"
  | NP_SSCOPMCE => "SSCOPMCE"
  | NP_IPLT => "IPLT"
  | NP_SPS => "SPS"
  | NP_PIPE => "PIPE"
  | NP_SCTP => "SCTP"
  | NP_FC => "FC"
  | NP_RSVP_E2E_IGNORE => "RSVP_E2E_IGNORE"
  | NP_MOBILITY => "MOBILITY"
  | NP_UDPLITE => "UDPLITE"
  | NP_MPLS_IN_IP => "MPLS_IN_IP"
  | NP_MANET => "MANET"
  | NP_HIP => "HIP"
  | NP_SHIM6 => "SHIM6"
  | NP_WESP => "WESP"
  | NP_ROHC => "ROHC"
  | NP_ETHERNET => "ETHERNET"
  | NP_USE => "USE"
  | NP_RESERVED => "RESERVED"
  | NP_OTHER s => "OTHER(" ++ dbg s ++ ")"
  | NP_UNKNOWN => "UNKNOWN"
  end.

(** webproxy.rs:84-176 [WebProxyRuleCategory] *)
Inductive web_category :=
| WC_Abortion
| WC_MatureContent
| WC_Alcohol
| WC_AlternativeSpirituality
| WC_ArtCulture
| WC_Auctions
| WC_AudioVideoClips
| WC_Trading
| WC_Economy
| WC_Charitable
| WC_OnlineChat
| WC_ChildPornography
| WC_CloudInfrastructure
| WC_CompromisedSites
| WC_InformationSecurity
| WC_ContentDeliveryNetworks
| WC_ControlledSubstances
| WC_Cryptocurrency
| WC_DynamicDNSHost
| WC_ECardInvitations
| WC_Education
| WC_Email
| WC_EmailMarketing
| WC_Entertainment
| WC_FileStorage
| WC_Finance
| WC_ForKids
| WC_Gambling
| WC_Games
| WC_Gore
| WC_Government
| WC_Hacking
| WC_Health
| WC_HumorJokes
| WC_Informational
| WC_InternetConnectedDevices
| WC_InternetTelephony
| WC_IntimateApparel
| WC_JobSearch
| WC_MaliciousOutboundDataBotnets
| WC_MaliciousSources
| WC_Marijuana
| WC_MediaSharing
| WC_Military
| WC_PotentiallyAdult
| WC_News
| WC_Forums
| WC_Nudity
| WC_BusinessApplications
| WC_OnlineMeetings
| WC_P2P
| WC_PersonalSites
| WC_PersonalsDating
| WC_Phishing
| WC_CopyrightConcerns
| WC_Placeholders
| WC_PoliticalAdvocacy
| WC_Pornography
| WC_PotentiallyUnwantedSoftware
| WC_ProxyAvoidance
| WC_RadioAudioStreams
| WC_RealEstate
| WC_Reference
| WC_Religion
| WC_RemoteAccess
| WC_Restaurants
| WC_QuestionableLegality
| WC_SearchEngines
| WC_SexEducation
| WC_SexualExpression
| WC_Shopping
| WC_SocialNetworking
| WC_DailyLiving
| WC_SoftwareDownloads
| WC_Spam
| WC_Sports
| WC_Suspicious
| WC_Technology
| WC_Tobacco
| WC_Translation
| WC_Travel
| WC_VideoStreams
| WC_Uncategorized
| WC_URLShorteners
| WC_Vehicles
| WC_Violence
| WC_Weapons
| WC_WebAds
| WC_WebHosting
| WC_WebInfrastructure
| WC_Others (s : string).
(** Every variant without a payload *)
Definition web_category_all : list web_category := [
  WC_Abortion;
  WC_MatureContent;
  WC_Alcohol;
  WC_AlternativeSpirituality;
  WC_ArtCulture;
  WC_Auctions;
  WC_AudioVideoClips;
  WC_Trading;
  WC_Economy;
  WC_Charitable;
  WC_OnlineChat;
  WC_ChildPornography;
  WC_CloudInfrastructure;
  WC_CompromisedSites;
  WC_InformationSecurity;
  WC_ContentDeliveryNetworks;
  WC_ControlledSubstances;
  WC_Cryptocurrency;
  WC_DynamicDNSHost;
  WC_ECardInvitations;
  WC_Education;
  WC_Email;
  WC_EmailMarketing;
  WC_Entertainment;
  WC_FileStorage;
  WC_Finance;
  WC_ForKids;
  WC_Gambling;
  WC_Games;
  WC_Gore;
  WC_Government;
  WC_Hacking;
  WC_Health;
  WC_HumorJokes;
  WC_Informational;
  WC_InternetConnectedDevices;
  WC_InternetTelephony;
  WC_IntimateApparel;
  WC_JobSearch;
  WC_MaliciousOutboundDataBotnets;
  WC_MaliciousSources;
  WC_Marijuana;
  WC_MediaSharing;
  WC_Military;
  WC_PotentiallyAdult;
  WC_News;
  WC_Forums;
  WC_Nudity;
  WC_BusinessApplications;
  WC_OnlineMeetings;
  WC_P2P;
  WC_PersonalSites;
  WC_PersonalsDating;
  WC_Phishing;
  WC_CopyrightConcerns;
  WC_Placeholders;
  WC_PoliticalAdvocacy;
  WC_Pornography;
  WC_PotentiallyUnwantedSoftware;
  WC_ProxyAvoidance;
  WC_RadioAudioStreams;
  WC_RealEstate;
  WC_Reference;
  WC_Religion;
  WC_RemoteAccess;
  WC_Restaurants;
  WC_QuestionableLegality;
  WC_SearchEngines;
  WC_SexEducation;
  WC_SexualExpression;
  WC_Shopping;
  WC_SocialNetworking;
  WC_DailyLiving;
  WC_SoftwareDownloads;
  WC_Spam;
  WC_Sports;
  WC_Suspicious;
  WC_Technology;
  WC_Tobacco;
  WC_Translation;
  WC_Travel;
  WC_VideoStreams;
  WC_Uncategorized;
  WC_URLShorteners;
  WC_Vehicles;
  WC_Violence;
  WC_Weapons;
  WC_WebAds;
  WC_WebHosting;
  WC_WebInfrastructure
].
(** webproxy.rs:178-184 [Display] writes the [Debug] form: the name of the variant; [dbg] is the [Debug] form of a text. *)
Definition web_category_str (dbg : string -> string) (x : web_category) : string :=
  match x with
  | WC_Abortion => "Abortion"
  | WC_MatureContent => "MatureContent"
  | WC_Alcohol => "Alcohol"
  | WC_AlternativeSpirituality => "AlternativeSpirituality"
  | WC_ArtCulture => "ArtCulture"
  | WC_Auctions => "Auctions"
  | WC_AudioVideoClips => "AudioVideoClips"
  | WC_Trading => "Trading"
  | WC_Economy => "Economy"
  | WC_Charitable => "Charitable"
  | WC_OnlineChat => "OnlineChat"
  | WC_ChildPornography => "ChildPornography"
  | WC_CloudInfrastructure => "CloudInfrastructure"
  | WC_CompromisedSites => "CompromisedSites"
  | WC_InformationSecurity => "InformationSecurity"
  | WC_ContentDeliveryNetworks => "ContentDeliveryNetworks"
  | WC_ControlledSubstances => "ControlledSubstances"
  | WC_Cryptocurrency => "Cryptocurrency"
  | WC_DynamicDNSHost => "DynamicDNSHost"
  | WC_ECardInvitations => "ECardInvitations"
  | WC_Education => "Education"
  | WC_Email => "Email"
  | WC_EmailMarketing => "EmailMarketing"
  | WC_Entertainment => "Entertainment"
  | WC_FileStorage => "FileStorage"
  | WC_Finance => "Finance"
  | WC_ForKids => "ForKids"
  | WC_Gambling => "Gambling"
  | WC_Games => "Games"
  | WC_Gore => "Gore"
  | WC_Government => "Government"
  | WC_Hacking => "Hacking"
  | WC_Health => "Health"
  | WC_HumorJokes => "HumorJokes"
  | WC_Informational => "Informational"
  | WC_InternetConnectedDevices => "InternetConnectedDevices"
  | WC_InternetTelephony => "InternetTelephony"
  | WC_IntimateApparel => "IntimateApparel"
  | WC_JobSearch => "JobSearch"
  | WC_MaliciousOutboundDataBotnets => "MaliciousOutboundDataBotnets"
  | WC_MaliciousSources => "MaliciousSources"
  | WC_Marijuana => "Marijuana"
  | WC_MediaSharing => "MediaSharing"
  | WC_Military => "Military"
  | WC_PotentiallyAdult => "PotentiallyAdult"
  | WC_News => "News"
  | WC_Forums => "Forums"
  | WC_Nudity => "Nudity"
  | WC_BusinessApplications => "BusinessApplications"
  | WC_OnlineMeetings => "OnlineMeetings"
  | WC_P2P => "P2P"
  | WC_PersonalSites => "PersonalSites"
  | WC_PersonalsDating => "PersonalsDating"
  | WC_Phishing => "Phishing"
  | WC_CopyrightConcerns => "CopyrightConcerns"
  | WC_Placeholders => "Placeholders"
  | WC_PoliticalAdvocacy => "PoliticalAdvocacy"
  | WC_Pornography => "Pornography"
  | WC_PotentiallyUnwantedSoftware => "PotentiallyUnwantedSoftware"
  | WC_ProxyAvoidance => "ProxyAvoidance"
  | WC_RadioAudioStreams => "RadioAudioStreams"
  | WC_RealEstate => "RealEstate"
  | WC_Reference => "Reference"
  | WC_Religion => "Religion"
  | WC_RemoteAccess => "RemoteAccess"
  | WC_Restaurants => "Restaurants"
  | WC_QuestionableLegality => "QuestionableLegality"
  | WC_SearchEngines => "SearchEngines"
  | WC_SexEducation => "SexEducation"
  | WC_SexualExpression => "SexualExpression"
  | WC_Shopping => "Shopping"
  | WC_SocialNetworking => "SocialNetworking"
  | WC_DailyLiving => "DailyLiving"
  | WC_SoftwareDownloads => "SoftwareDownloads"
  | WC_Spam => "Spam"
  | WC_Sports => "Sports"
  | WC_Suspicious => "Suspicious"
  | WC_Technology => "Technology"
  | WC_Tobacco => "Tobacco"
  | WC_Translation => "Translation"
  | WC_Travel => "Travel"
  | WC_VideoStreams => "VideoStreams"
  | WC_Uncategorized => "Uncategorized"
  | WC_URLShorteners => "URLShorteners"
  | WC_Vehicles => "Vehicles"
  | WC_Violence => "Violence"
  | WC_Weapons => "Weapons"
  | WC_WebAds => "WebAds"
  | WC_WebHosting => "WebHosting"
  | WC_WebInfrastructure => "WebInfrastructure"
  | WC_Others s => "Others(" ++ dbg s ++ ")"
  end.

(** intrusion.rs:66-128 [IntrusionCategory] *)
Inductive intrusion_category :=
| IC_XSS
| IC_SQL_INJECTION
| IC_PATH_TRANSVERSAL
| IC_WEB_ATTACK
| IC_DOS
| IC_SURVEILLANCE
| IC_TROJAN
| IC_VIRUS
| IC_SPYWARE
| IC_RAT_TOOL
| IC_RANSOMWARE
| IC_HACKTOOL
| IC_PROXY_AVOIDANCE
| IC_REMOTE_EXPLOIT
| IC_LOCAL_EXPLOIT
| IC_BOTNET
| IC_SPAM
| IC_PHISHING
| IC_CEO_FRAUD
| IC_SCAM
| IC_DATA_THEFT
| IC_BRUTE_FORCE
| IC_MISCONFIGURATION
| IC_AD_ATTACK
| IC_UNKNOWN
| IC_INFORMATION_LEAKAGE
| IC_ANOMALY
| IC_SESSION_FIXATION
| IC_PROTOCOL_ATTACK
| IC_REPUTATION.
(** Every variant without a payload *)
Definition intrusion_category_all : list intrusion_category := [
  IC_XSS;
  IC_SQL_INJECTION;
  IC_PATH_TRANSVERSAL;
  IC_WEB_ATTACK;
  IC_DOS;
  IC_SURVEILLANCE;
  IC_TROJAN;
  IC_VIRUS;
  IC_SPYWARE;
  IC_RAT_TOOL;
  IC_RANSOMWARE;
  IC_HACKTOOL;
  IC_PROXY_AVOIDANCE;
  IC_REMOTE_EXPLOIT;
  IC_LOCAL_EXPLOIT;
  IC_BOTNET;
  IC_SPAM;
  IC_PHISHING;
  IC_CEO_FRAUD;
  IC_SCAM;
  IC_DATA_THEFT;
  IC_BRUTE_FORCE;
  IC_MISCONFIGURATION;
  IC_AD_ATTACK;
  IC_UNKNOWN;
  IC_INFORMATION_LEAKAGE;
  IC_ANOMALY;
  IC_SESSION_FIXATION;
  IC_PROTOCOL_ATTACK;
  IC_REPUTATION
].
(** intrusion.rs:129-135 [Display] writes the [Debug] form: the name of the variant; [dbg] is the [Debug] form of a text. *)
Definition intrusion_category_str (dbg : string -> string) (x : intrusion_category) : string :=
  match x with
  | IC_XSS => "XSS"
  | IC_SQL_INJECTION => "SQL_INJECTION"
  | IC_PATH_TRANSVERSAL => "PATH_TRANSVERSAL"
  | IC_WEB_ATTACK => "WEB_ATTACK"
  | IC_DOS => "DOS"
  | IC_SURVEILLANCE => "SURVEILLANCE"
  | IC_TROJAN => "TROJAN"
  | IC_VIRUS => "VIRUS"
  | IC_SPYWARE => "SPYWARE"
  | IC_RAT_TOOL => "RAT_TOOL"
  | IC_RANSOMWARE => "RANSOMWARE"
  | IC_HACKTOOL => "HACKTOOL"
  | IC_PROXY_AVOIDANCE => "PROXY_AVOIDANCE"
  | IC_REMOTE_EXPLOIT => "REMOTE_EXPLOIT"
  | IC_LOCAL_EXPLOIT => "LOCAL_EXPLOIT"
  | IC_BOTNET => "BOTNET"
  | IC_SPAM => "SPAM"
  | IC_PHISHING => "PHISHING"
  | IC_CEO_FRAUD => "CEO_FRAUD"
  | IC_SCAM => "SCAM"
  | IC_DATA_THEFT => "DATA_THEFT"
  | IC_BRUTE_FORCE => "BRUTE_FORCE"
  | IC_MISCONFIGURATION => "MISCONFIGURATION"
  | IC_AD_ATTACK => "AD_ATTACK"
  | IC_UNKNOWN => "UNKNOWN"
  | IC_INFORMATION_LEAKAGE => "INFORMATION_LEAKAGE"
  | IC_ANOMALY => "ANOMALY"
  | IC_SESSION_FIXATION => "SESSION_FIXATION"
  | IC_PROTOCOL_ATTACK => "PROTOCOL_ATTACK"
  | IC_REPUTATION => "REPUTATION"
  end.

(** protocol.rs:161-308 *)
Local Open Scope N_scope.
Definition parse_protocol_id (id : N) : net_protocol :=
  match id with
  | 0 => NP_HOPOPT
  | 1 => NP_ICMP
  | 2 => NP_IGMP
  | 3 => NP_GGP
  | 4 => NP_IPV4
  | 5 => NP_ST
  | 6 => NP_TCP
  | 7 => NP_CBT
  | 8 => NP_EGP
  | 9 => NP_IGP
  | 10 => NP_BBN_RCC_MON
  | 11 => NP_NVP_II
  | 12 => NP_PUP
  | 13 => NP_ARGUS
  | 14 => NP_EMCON
  | 15 => NP_XNET
  | 16 => NP_CHAOS
  | 17 => NP_UDP
  | 18 => NP_MUX
  | 19 => NP_DCN_MEAS
  | 20 => NP_HMP
  | 21 => NP_PRM
  | 22 => NP_XNS_IDP
  | 23 => NP_TRUNK_1
  | 24 => NP_TRUNK_2
  | 25 => NP_LEAF_1
  | 26 => NP_LEAF_2
  | 27 => NP_RDP
  | 28 => NP_IRTP
  | 29 => NP_ISO_TP4
  | 30 => NP_NETBLT
  | 31 => NP_MFE_NSP
  | 32 => NP_MERIT_INP
  | 33 => NP_DCCP
  | 34 => NP_ThirdPC
  | 35 => NP_IDPR
  | 36 => NP_XTP
  | 37 => NP_DDP
  | 38 => NP_IDPR_CMTP
  | 39 => NP_TPpp
  | 40 => NP_IL
  | 41 => NP_IPV6
  | 42 => NP_SDRP
  | 43 => NP_IPV6_ROUTE
  | 44 => NP_IPV6_FRAG
  | 45 => NP_IDRP
  | 46 => NP_RSVP
  | 47 => NP_GRE
  | 48 => NP_DSR
  | 49 => NP_BNA
  | 50 => NP_ESP
  | 51 => NP_AH
  | 52 => NP_I_NLSP
  | 53 => NP_SWIPE
  | 54 => NP_NARP
  | 55 => NP_MOBILE
  | 56 => NP_TLSP
  | 57 => NP_SKIP
  | 58 => NP_IPV6_ICMP
  | 59 => NP_IPV6_NONXT
  | 60 => NP_IPV6_OPTS
  | 62 => NP_CFTP
  | 64 => NP_SAT_EXPAK
  | 65 => NP_KRYPTOLAN
  | 66 => NP_RVD
  | 67 => NP_IPPC
  | 69 => NP_SAT_MON
  | 70 => NP_VISA
  | 71 => NP_IPCV
  | 72 => NP_CPNX
  | 73 => NP_CPHB
  | 74 => NP_WSN
  | 75 => NP_PVP
  | 76 => NP_BR_SAT_MON
  | 77 => NP_SUN_ND
  | 78 => NP_WB_MON
  | 79 => NP_WB_EXPAK
  | 80 => NP_ISO_IP
  | 81 => NP_VMTP
  | 82 => NP_SECURE_VMTP
  | 83 => NP_VINES
  | 84 => NP_IPTM
  | 85 => NP_NSFNET_IGP
  | 86 => NP_DGP
  | 87 => NP_TCF
  | 88 => NP_EIGRP
  | 89 => NP_OSPFIGP
  | 90 => NP_SPRITE_RPC
  | 91 => NP_LARP
  | 92 => NP_MTP
  | 93 => NP_AX_25
  | 94 => NP_IPIP
  | 95 => NP_MICP
  | 96 => NP_SCC_SP
  | 97 => NP_ETHERIP
  | 98 => NP_ENCAP
  | 100 => NP_GMTP
  | 101 => NP_IFMP
  | 102 => NP_PNNI
  | 103 => NP_PIM
  | 104 => NP_ARIS
  | 105 => NP_SCPS
  | 106 => NP_QNX
  | 107 => NP_A_N
  | 108 => NP_IPCOMP
  | 109 => NP_SNP
  | 110 => NP_COMPAQ_PEER
  | 111 => NP_IPX_IN_IP
  | 112 => NP_VRRP
  | 113 => NP_PGM
  | 115 => NP_L2TP
  | 116 => NP_DDX
  | 117 => NP_IATP
  | 118 => NP_STP
  | 119 => NP_SRP
  | 120 => NP_UTI
  | 121 => NP_SMP
  | 122 => NP_SM
  | 123 => NP_PTP
  | 124 => NP_ISIS
  | 125 => NP_FIRE
  | 126 => NP_CRTP
  | 127 => NP_CRUDP
  | 128 => NP_SSCOPMCE
  | 129 => NP_IPLT
  | 130 => NP_SPS
  | 131 => NP_PIPE
  | 132 => NP_SCTP
  | 133 => NP_FC
  | 134 => NP_RSVP_E2E_IGNORE
  | 135 => NP_MOBILITY
  | 136 => NP_UDPLITE
  | 137 => NP_MPLS_IN_IP
  | 138 => NP_MANET
  | 139 => NP_HIP
  | 140 => NP_SHIM6
  | 141 => NP_WESP
  | 142 => NP_ROHC
  | 143 => NP_ETHERNET
  | 253 => NP_USE
  | 254 => NP_USE
  | 255 => NP_RESERVED
  | _ => NP_UNKNOWN
  end.
