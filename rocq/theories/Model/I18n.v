(** Model of [I18nDataset] in src/components/dataset/i18n.rs. *)
From Coq Require Import String List.
From Verif Require Import Base.Ord Base.BTree Model.Language.
Import ListNotations.

(** i18n.rs:467-470: text -> language -> value *)
Definition i18n := bt string (bt language string).
(** i18n.rs:473-475 *)
Definition i18n_new : i18n := bt_empty.

(** i18n.rs:495-507; the [return] of an entry that has just been found is unreachable *)
Definition i18n_insert (lang : language) (text value : string) (d : i18n) : i18n :=
  if bt_has text d then
    match bt_get text d with
    | Some map => bt_insert text (bt_insert lang value map) d
    | None => d
    end
  else bt_insert text (bt_insert lang value bt_empty) d.

(** i18n.rs:481-493: the loop over the new dictionary, in key order *)
Fixpoint i18n_set_loop (lang : language) (new_data : list (string * string)) (d : i18n) : i18n :=
  match new_data with
  | [] => d
  | (k, value) :: r =>
      let d' :=
        if bt_has k d then
          match bt_get k d with
          | Some map => bt_insert k (bt_insert lang value map) d
          | None => d
          end
        else bt_insert k (bt_insert lang value bt_empty) d in
      i18n_set_loop lang r d'
  end.
(** i18n.rs:476-494; [data] is a [BTreeMap] *)
Definition i18n_set_dictionary (lang : language) (data : bt string string) (d : i18n) : i18n :=
  i18n_set_loop lang data d.

(** i18n.rs:508-510 *)
Definition i18n_get (text : string) (lang : language) (d : i18n) : option string :=
  match bt_get text d with Some m => bt_get lang m | None => None end.

(** [BTreeMap::first_key_value] *)
Definition first_value {K V} (m : bt K V) : option V := match m with [] => None | (_, v) :: _ => Some v end.

(** i18n.rs:511-526 *)
Definition i18n_get_or_default (text : string) (lang : language) (d : i18n) : option string :=
  match bt_get text d with
  | None => None
  | Some langs =>
      match bt_get lang langs with
      | Some x => Some x
      | None =>
          match bt_get L_EN langs with
          | Some x => Some x
          | None => first_value langs
          end
      end
  end.
