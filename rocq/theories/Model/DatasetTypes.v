(** Generated by tools/gen_datasets.py from src/components/dataset/mod.rs. *)
From Coq Require Import String NArith List.
From Verif Require Import Base.Ord Model.Datasets.
Import ListNotations.
Local Open Scope string_scope.
Local Open Scope N_scope.

(** The types of synchronised datasets (dataset/mod.rs:15-31); [handle k] is a value of the type [k]: an [Arc] and a channel. *)
Inductive kind := KCalendar | KGeoIp | KI18n | KIpMap | KIpMapList | KIpNet | KIpSet | KRules | KTextMap | KTextMapList | KTextSet.
Inductive handle (k : kind) := Handle (s : syn).
Arguments Handle {k} _.

(** dataset/mod.rs:750-803 *)
Inductive dataset_type :=
| T_GeoIp
| T_IpMac
| T_IpDNS
| T_MacHost
| T_HostUser
| T_BlockIp
| T_BlockDomain
| T_BlockEmailSender
| T_BlockCountry
| T_UserTag
| T_AssetTag
| T_IpCloudService
| T_IpCloudProvider
| T_UserHeadquarters
| T_IpHeadquarters
| T_HeadquartersWorkingHours
| T_HostVulnerable
| T_CorrelationRules
| T_CustomMapIpNet (name : string)
| T_CustomMapText (name : string)
| T_CustomMapTextList (name : string)
| T_CustomIpList (name : string)
| T_CustomIpMap (name : string)
| T_CustomTextList (name : string)
| T_MantainceCalendar
| T_Configuration
| T_Secrets (name : string)
| T_I18n.

(** dataset/mod.rs:38-95 *)
Inductive siem_dataset :=
| D_CorrelationRules (v : handle KRules)
| D_GeoIp (v : handle KGeoIp)
| D_IpMac (v : handle KIpMap)
| D_IpDNS (v : handle KIpMapList)
| D_MacHost (v : handle KTextMap)
| D_HostUser (v : handle KTextMap)
| D_BlockIp (v : handle KIpSet)
| D_BlockDomain (v : handle KTextSet)
| D_BlockEmailSender (v : handle KTextSet)
| D_BlockCountry (v : handle KTextSet)
| D_HostVulnerable (v : handle KTextMapList)
| D_UserTag (v : handle KTextMapList)
| D_AssetTag (v : handle KTextMapList)
| D_IpCloudService (v : handle KIpNet)
| D_IpCloudProvider (v : handle KIpNet)
| D_UserHeadquarters (v : handle KTextMap)
| D_IpHeadquarters (v : handle KIpNet)
| D_HeadquartersWorkingHours
| D_CustomMapIpNet (name : string) (v : handle KIpNet)
| D_CustomMapText (name : string) (v : handle KTextMap)
| D_CustomMapTextList (name : string) (v : handle KTextMapList)
| D_CustomIpList (name : string) (v : handle KIpSet)
| D_CustomIpMap (name : string) (v : handle KIpMap)
| D_CustomTextList (name : string) (v : handle KTextSet)
| D_MantainceCalendar (v : handle KCalendar)
| D_Configuration (v : handle KTextMap)
| D_I18n (v : handle KI18n)
| D_Secrets (name : string) (v : handle KTextMap).

(** The derived [Ord] (dataset/mod.rs:748): declaration order, then the payload *)
Definition type_rank (t : dataset_type) : N * string :=
  match t with
  | T_GeoIp => (0, "")
  | T_IpMac => (1, "")
  | T_IpDNS => (2, "")
  | T_MacHost => (3, "")
  | T_HostUser => (4, "")
  | T_BlockIp => (5, "")
  | T_BlockDomain => (6, "")
  | T_BlockEmailSender => (7, "")
  | T_BlockCountry => (8, "")
  | T_UserTag => (9, "")
  | T_AssetTag => (10, "")
  | T_IpCloudService => (11, "")
  | T_IpCloudProvider => (12, "")
  | T_UserHeadquarters => (13, "")
  | T_IpHeadquarters => (14, "")
  | T_HeadquartersWorkingHours => (15, "")
  | T_HostVulnerable => (16, "")
  | T_CorrelationRules => (17, "")
  | T_CustomMapIpNet s => (18, s)
  | T_CustomMapText s => (19, s)
  | T_CustomMapTextList s => (20, s)
  | T_CustomIpList s => (21, s)
  | T_CustomIpMap s => (22, s)
  | T_CustomTextList s => (23, s)
  | T_MantainceCalendar => (24, "")
  | T_Configuration => (25, "")
  | T_Secrets s => (26, s)
  | T_I18n => (27, "")
  end.
Definition type_unrank (r : N * string) : dataset_type :=
  match fst r with
  | 0 => T_GeoIp
  | 1 => T_IpMac
  | 2 => T_IpDNS
  | 3 => T_MacHost
  | 4 => T_HostUser
  | 5 => T_BlockIp
  | 6 => T_BlockDomain
  | 7 => T_BlockEmailSender
  | 8 => T_BlockCountry
  | 9 => T_UserTag
  | 10 => T_AssetTag
  | 11 => T_IpCloudService
  | 12 => T_IpCloudProvider
  | 13 => T_UserHeadquarters
  | 14 => T_IpHeadquarters
  | 15 => T_HeadquartersWorkingHours
  | 16 => T_HostVulnerable
  | 17 => T_CorrelationRules
  | 18 => T_CustomMapIpNet (snd r)
  | 19 => T_CustomMapText (snd r)
  | 20 => T_CustomMapTextList (snd r)
  | 21 => T_CustomIpList (snd r)
  | 22 => T_CustomIpMap (snd r)
  | 23 => T_CustomTextList (snd r)
  | 24 => T_MantainceCalendar
  | 25 => T_Configuration
  | 26 => T_Secrets (snd r)
  | _ => T_I18n
  end.
Lemma type_unrank_rank t : type_unrank (type_rank t) = t.
Proof. destruct t; reflexivity. Qed.

#[global] Instance Ord_dataset_type : Ord dataset_type.
Proof.
  refine {| cmp := fun a b => cmp (type_rank a) (type_rank b) |}.
  - intros x y. rewrite cmp_eq. split; [|intros ->; reflexivity].
    intros H. rewrite <- (type_unrank_rank x), <- (type_unrank_rank y), H. reflexivity.
  - intros x y; apply cmp_anti.
  - intros x y z; apply cmp_lt_trans.
Defined.

(** dataset/mod.rs:806-839 *)
Definition type_of (d : siem_dataset) : dataset_type :=
  match d with
  | D_CorrelationRules _ => T_CorrelationRules
  | D_GeoIp _ => T_GeoIp
  | D_IpMac _ => T_IpMac
  | D_IpDNS _ => T_IpDNS
  | D_MacHost _ => T_MacHost
  | D_HostUser _ => T_HostUser
  | D_BlockIp _ => T_BlockIp
  | D_BlockDomain _ => T_BlockDomain
  | D_BlockEmailSender _ => T_BlockEmailSender
  | D_BlockCountry _ => T_BlockCountry
  | D_UserTag _ => T_UserTag
  | D_AssetTag _ => T_AssetTag
  | D_IpCloudService _ => T_IpCloudService
  | D_IpCloudProvider _ => T_IpCloudProvider
  | D_UserHeadquarters _ => T_UserHeadquarters
  | D_IpHeadquarters _ => T_IpHeadquarters
  | D_HeadquartersWorkingHours => T_HeadquartersWorkingHours
  | D_MantainceCalendar _ => T_MantainceCalendar
  | D_Configuration _ => T_Configuration
  | D_HostVulnerable _ => T_HostVulnerable
  | D_CustomMapIpNet name _ => T_CustomMapIpNet name
  | D_CustomMapText name _ => T_CustomMapText name
  | D_CustomIpList name _ => T_CustomIpList name
  | D_CustomIpMap name _ => T_CustomIpMap name
  | D_CustomTextList name _ => T_CustomTextList name
  | D_CustomMapTextList name _ => T_CustomMapTextList name
  | D_I18n _ => T_I18n
  | D_Secrets name _ => T_Secrets name
  end.
