(** Which kind of dataset each dataset type is made of (documentation of the dataset enum). *)
From Coq Require Import List.
From Verif Require Import Model.DatasetTypes Model.Language.
Import ListNotations.

Definition kind_of (t : dataset_type) : option kind :=
  match t with
  | T_GeoIp => Some KGeoIp
  | T_IpMac | T_CustomIpMap _ => Some KIpMap
  | T_IpDNS => Some KIpMapList
  | T_MacHost | T_HostUser | T_UserHeadquarters | T_Configuration | T_CustomMapText _ | T_Secrets _ => Some KTextMap
  | T_BlockIp | T_CustomIpList _ => Some KIpSet
  | T_BlockDomain | T_BlockEmailSender | T_BlockCountry | T_CustomTextList _ => Some KTextSet
  | T_HostVulnerable | T_UserTag | T_AssetTag | T_CustomMapTextList _ => Some KTextMapList
  | T_IpCloudService | T_IpCloudProvider | T_IpHeadquarters | T_CustomMapIpNet _ => Some KIpNet
  | T_CorrelationRules => Some KRules
  | T_MantainceCalendar => Some KCalendar
  | T_I18n => Some KI18n
  | T_HeadquartersWorkingHours => None
  end.

(** [d] is the last dataset of type [t] in [l]. *)
Definition last_of_type (l : list siem_dataset) (t : dataset_type) (d : siem_dataset) : Prop :=
  exists before after, l = before ++ d :: after /\ type_of d = t /\ Forall (fun x => type_of x <> t) after.
