(** Model of src/components/dataset/holder.rs and of the conversions of src/components/dataset/mod.rs. *)
From Coq Require Import String NArith List.
From Verif Require Import Base.Ord Base.BTree Base.Outcome Model.Datasets Model.DatasetTypes.
Import ListNotations.
Local Open Scope string_scope.

(** * Conversions *)

(** dataset/mod.rs:414-424 *)
Definition from_geo_ip (t : dataset_type) (v : handle KGeoIp) : result siem_dataset string :=
  if keqb t T_GeoIp then Err "GeoIPSynDataset is only valid for GeoIP dataset!" else Ok (D_GeoIp v).
(** dataset/mod.rs:425-435, 436-446 *)
Definition to_geo_ip (d : siem_dataset) : result (handle KGeoIp) string :=
  match d with D_GeoIp v => Ok v | _ => Err "GeoIPSynDataset is only valid for GeoIP dataset!" end.
(** dataset/mod.rs:448-458, 459-469 *)
Definition to_i18n (d : siem_dataset) : result (handle KI18n) string :=
  match d with D_I18n v => Ok v | _ => Err "I18nSynDataset is only valid for I18n dataset!" end.

(** dataset/mod.rs:471-483 *)
Definition from_ip_map (t : dataset_type) (v : handle KIpMap) : result siem_dataset string :=
  match t with
  | T_IpMac => Ok (D_IpMac v)
  | T_CustomIpMap name => Ok (D_CustomIpMap name v)
  | _ => Err "IpMapSynDataset not valid for this type"
  end.
(** dataset/mod.rs:484-494, 495-505 *)
Definition to_ip_map (d : siem_dataset) : result (handle KIpMap) string :=
  match d with
  | D_IpMac v => Ok v
  | D_CustomIpMap _ v => Ok v
  | _ => Err "IpMapSynDataset not valid for this type"
  end.

(** dataset/mod.rs:507-523 *)
Definition from_text_map (t : dataset_type) (v : handle KTextMap) : result siem_dataset string :=
  match t with
  | T_MacHost => Ok (D_MacHost v)
  | T_HostUser => Ok (D_HostUser v)
  | T_UserHeadquarters => Ok (D_UserHeadquarters v)
  | T_Configuration => Ok (D_Configuration v)
  | T_CustomMapText name => Ok (D_CustomMapText name v)
  | T_Secrets name => Ok (D_Secrets name v)
  | _ => Err "TextMapSynDataset not valid for this type"
  end.
(** dataset/mod.rs:524-538, 539-553 *)
Definition to_text_map (d : siem_dataset) : result (handle KTextMap) string :=
  match d with
  | D_MacHost v => Ok v
  | D_HostUser v => Ok v
  | D_UserHeadquarters v => Ok v
  | D_Configuration v => Ok v
  | D_CustomMapText _ v => Ok v
  | D_Secrets _ v => Ok v
  | _ => Err "TextMapSynDataset not valid for this type"
  end.

(** dataset/mod.rs:555-564 *)
Definition from_ip_map_list (t : dataset_type) (v : handle KIpMapList) : result siem_dataset string :=
  match t with T_IpDNS => Ok (D_IpDNS v) | _ => Err "IpMapSynDataset not valid for this type" end.
(** dataset/mod.rs:565-574, 575-584 *)
Definition to_ip_map_list (d : siem_dataset) : result (handle KIpMapList) string :=
  match d with D_IpDNS v => Ok v | _ => Err "IpMapListSynDataset not valid for this type" end.

(** dataset/mod.rs:586-598 *)
Definition from_ip_set (t : dataset_type) (v : handle KIpSet) : result siem_dataset string :=
  match t with
  | T_BlockIp => Ok (D_BlockIp v)
  | T_CustomIpList name => Ok (D_CustomIpList name v)
  | _ => Err "IpMapSynDataset not valid for this type"
  end.
(** dataset/mod.rs:599-609, 610-620 *)
Definition to_ip_set (d : siem_dataset) : result (handle KIpSet) string :=
  match d with
  | D_BlockIp v => Ok v
  | D_CustomIpList _ v => Ok v
  | _ => Err "IpSetSynDataset not valid for this type"
  end.

(** dataset/mod.rs:622-636 *)
Definition from_text_set (t : dataset_type) (v : handle KTextSet) : result siem_dataset string :=
  match t with
  | T_BlockDomain => Ok (D_BlockDomain v)
  | T_BlockEmailSender => Ok (D_BlockEmailSender v)
  | T_BlockCountry => Ok (D_BlockCountry v)
  | T_CustomTextList name => Ok (D_CustomTextList name v)
  | _ => Err "IpMapSynDataset not valid for this type"
  end.
(** dataset/mod.rs:637-649, 650-662 *)
Definition to_text_set (d : siem_dataset) : result (handle KTextSet) string :=
  match d with
  | D_BlockDomain v => Ok v
  | D_BlockEmailSender v => Ok v
  | D_BlockCountry v => Ok v
  | D_CustomTextList _ v => Ok v
  | _ => Err "TextSetSynDataset not valid for this type"
  end.

(** dataset/mod.rs:664-678 *)
Definition from_text_map_list (t : dataset_type) (v : handle KTextMapList) : result siem_dataset string :=
  match t with
  | T_HostVulnerable => Ok (D_HostVulnerable v)
  | T_UserTag => Ok (D_UserTag v)
  | T_AssetTag => Ok (D_AssetTag v)
  | T_CustomMapTextList name => Ok (D_CustomMapTextList name v)
  | _ => Err "IpMapSynDataset not valid for this type"
  end.
(** dataset/mod.rs:679-691, 692-704 *)
Definition to_text_map_list (d : siem_dataset) : result (handle KTextMapList) string :=
  match d with
  | D_HostVulnerable v => Ok v
  | D_UserTag v => Ok v
  | D_AssetTag v => Ok v
  | D_CustomMapTextList _ v => Ok v
  | _ => Err "TextMapListSynDataset not valid for this type"
  end.

(** dataset/mod.rs:706-720 *)
Definition from_ip_net (t : dataset_type) (v : handle KIpNet) : result siem_dataset string :=
  match t with
  | T_IpCloudService => Ok (D_IpCloudService v)
  | T_IpCloudProvider => Ok (D_IpCloudProvider v)
  | T_IpHeadquarters => Ok (D_IpHeadquarters v)
  | T_CustomMapIpNet name => Ok (D_CustomMapIpNet name v)
  | _ => Err "IpMapSynDataset not valid for this type"
  end.
(** dataset/mod.rs:721-733, 734-746 *)
Definition to_ip_net (d : siem_dataset) : result (handle KIpNet) string :=
  match d with
  | D_IpCloudService v => Ok v
  | D_IpCloudProvider v => Ok v
  | D_IpHeadquarters v => Ok v
  | D_CustomMapIpNet _ v => Ok v
  | _ => Err "IpNetSynDataset not valid for this type"
  end.

(** dataset/mod.rs:133-147, 157-171 *)
Definition custom_map_ip_net (d : siem_dataset) (name : string) : result (handle KIpNet) string :=
  match d with
  | D_CustomMapIpNet n v => if String.eqb n name then Ok v else Err "Cannot cast dataset"
  | _ => Err "Cannot cast dataset"
  end.
(** dataset/mod.rs:181-195, 205-219 *)
Definition custom_map_text (d : siem_dataset) (name : string) : result (handle KTextMap) string :=
  match d with
  | D_CustomMapText n v => if String.eqb n name then Ok v else Err "Cannot cast dataset"
  | _ => Err "Cannot cast dataset"
  end.
(** dataset/mod.rs:229-243, 253-267 *)
Definition custom_map_text_list (d : siem_dataset) (name : string) : result (handle KTextMapList) string :=
  match d with
  | D_CustomMapTextList n v => if String.eqb n name then Ok v else Err "Cannot cast dataset"
  | _ => Err "Cannot cast dataset"
  end.
(** dataset/mod.rs:278-292, 302-316 *)
Definition custom_ip_list (d : siem_dataset) (name : string) : result (handle KIpSet) string :=
  match d with
  | D_CustomIpList n v => if String.eqb n name then Ok v else Err "Cannot cast dataset"
  | _ => Err "Cannot cast dataset"
  end.
(** dataset/mod.rs:326-340, 350-364 *)
Definition custom_ip_map (d : siem_dataset) (name : string) : result (handle KIpMap) string :=
  match d with
  | D_CustomIpMap n v => if String.eqb n name then Ok v else Err "Cannot cast dataset"
  | _ => Err "Cannot cast dataset"
  end.
(** dataset/mod.rs:374-388, 398-412 *)
Definition custom_text_list (d : siem_dataset) (name : string) : result (handle KTextSet) string :=
  match d with
  | D_CustomTextList n v => if String.eqb n name then Ok v else Err "Cannot cast dataset"
  | _ => Err "Cannot cast dataset"
  end.

(** dataset/mod.rs:848-852 [PartialEq], 860-864 [Ord]: only the type counts *)
Definition dataset_eqb (a b : siem_dataset) : bool := keqb (type_of a) (type_of b).
Definition dataset_cmp (a b : siem_dataset) : comparison := cmp (type_of a) (type_of b).

(** * The holder *)

(** holder.rs:6-8 *)
Definition holder := bt dataset_type siem_dataset.
(** holder.rs:11-13 *)
Definition holder_new : holder := bt_empty.
(** holder.rs:23-25 *)
Definition holder_insert (d : siem_dataset) (h : holder) : holder := bt_insert (type_of d) d h.
(** holder.rs:14-21 *)
Fixpoint from_datasets_loop (list : list siem_dataset) (h : holder) : holder :=
  match list with
  | [] => h
  | d :: r => from_datasets_loop r (bt_insert (type_of d) d h)
  end.
Definition from_datasets (list : list siem_dataset) : holder := from_datasets_loop list bt_empty.
(** holder.rs:27-29 *)
Definition holder_get (k : dataset_type) (h : holder) : option siem_dataset := bt_get k h.
(** holder.rs:30-41 *)
Fixpoint subset_loop (h : holder) (list : list dataset_type) (acc : holder) : holder :=
  match list with
  | [] => acc
  | t :: r =>
      match bt_get t h with
      | Some d => subset_loop h r (bt_insert t d acc)
      | None => subset_loop h r acc
      end
  end.
Definition holder_subset (list : list dataset_type) (h : holder) : holder := subset_loop h list bt_empty.

(** [self.datasets.get(&t)?.try_into().ok()] *)
Definition get_as {A} (conv : siem_dataset -> result A string) (t : dataset_type) (h : holder) : option A :=
  match bt_get t h with
  | None => None
  | Some d => match conv d with Ok v => Some v | Err _ => None end
  end.

(** holder.rs:43-45 *)
Definition h_geoip := get_as to_geo_ip T_GeoIp.
(** holder.rs:46-48 *)
Definition h_i18n := get_as to_i18n T_I18n.
(** holder.rs:49-51 *)
Definition h_ip_mac := get_as to_ip_map T_IpMac.
(** holder.rs:52-54 *)
Definition h_ip_dns := get_as to_ip_map_list T_IpDNS.
(** holder.rs:55-57 *)
Definition h_mac_host := get_as to_text_map T_MacHost.
(** holder.rs:58-60 *)
Definition h_host_user := get_as to_text_map T_HostUser.
(** holder.rs:61-63 *)
Definition h_block_ip := get_as to_ip_set T_BlockIp.
(** holder.rs:64-66 *)
Definition h_block_domain := get_as to_text_set T_BlockDomain.
(** holder.rs:67-69 *)
Definition h_block_email := get_as to_text_set T_BlockEmailSender.
(** holder.rs:70-72 *)
Definition h_block_country := get_as to_text_set T_BlockCountry.
(** holder.rs:73-75 *)
Definition h_host_vulnerable := get_as to_text_map_list T_HostVulnerable.
(** holder.rs:76-78 *)
Definition h_user_tag := get_as to_text_map_list T_UserTag.
(** holder.rs:79-81 *)
Definition h_asset_tag := get_as to_text_map_list T_AssetTag.
(** holder.rs:82-84 *)
Definition h_cloud_service := get_as to_ip_net T_IpCloudService.
(** holder.rs:85-87 *)
Definition h_cloud_provider := get_as to_ip_net T_IpCloudProvider.
(** holder.rs:88-90 *)
Definition h_user_headquarters := get_as to_text_map T_UserHeadquarters.
(** holder.rs:91-93 *)
Definition h_ip_headquarters := get_as to_ip_net T_IpHeadquarters.
(** holder.rs:94-96 *)
Definition h_configuration := get_as to_text_map T_Configuration.
