From Coq Require Import String List Bool Sorted.
From Verif Require Import Base.Arith Base.Ord Base.BTree Base.Str Base.Outcome Model.Ip Model.Field Model.Log Model.Schema
  Spec.LogSpec Proofs.LogP.
Import ListNotations.
Local Open Scope string_scope.

Definition declared (n : string) (s : schema) : Prop := get_field n s <> None.
Lemma has_declared n s : bt_has n (s_fields s) = true <-> declared n s.
Proof. unfold declared, get_field, bt_has. destruct (bt_get n (s_fields s)); split; congruence. Qed.

(** ** apply *)
Lemma apply_get s l n : bt_get n (l_fields (apply_schema s l)) = if bt_has n (s_fields s) then bt_get n (l_fields l) else None.
Proof. unfold apply_schema, bt_retain. cbn [l_fields]. rewrite (bt_get_filter_key (fun k => bt_has k (s_fields s))). reflexivity. Qed.
Lemma apply_field s l n : log_field n (apply_schema s l) = if bt_has n (s_fields s) then log_field n l else None.
Proof. unfold log_field. rewrite apply_get. destruct (bt_has n (s_fields s)); reflexivity. Qed.
Lemma filter_idem {A} (f : A -> bool) l : filter f (filter f l) = filter f l.
Proof. induction l as [|a l IH]; [reflexivity|]. cbn. destruct (f a) eqn:E; [|exact IH]. cbn. rewrite E, IH. reflexivity. Qed.
Lemma apply_idem s l : apply_schema s (apply_schema s l) = apply_schema s l.
Proof. unfold apply_schema. cbn [l_tags l_fields l_ip_fields]. unfold bt_retain. rewrite filter_idem. reflexivity. Qed.
Lemma apply_iter s l : log_iter (apply_schema s l) = filter (fun p => bt_has (fst p) (s_fields s)) (log_iter l).
Proof.
  unfold log_iter, apply_schema, bt_retain. cbn [l_fields]. induction (l_fields l) as [|[k f] r IH]; [reflexivity|].
  cbn. destruct (bt_has k (s_fields s)); cbn; rewrite IH; reflexivity.
Qed.

(** ** merging *)
Definition merged (a b : option field_type) : option field_type :=
  match b with
  | None => a
  | Some (FTTextOptions lb db) =>
      match a with
      | Some (FTTextOptions la da) => Some (FTTextOptions (merge_options lb la) da)
      | _ => b
      end
  | Some _ => b
  end.
Lemma add_element_get fields p n :
  bt_get n (add_element fields p) = if keqb n (fst p) then merged (bt_get n fields) (Some (snd p)) else bt_get n fields.
Proof.
  destruct p as [k e]. cbn [fst snd]. unfold add_element.
  destruct e; try (rewrite bt_get_insert; destruct (keqb n k); reflexivity).
  destruct (keqb_spec n k) as [->|Hn].
  - destruct (bt_get k fields) as [[]|]; rewrite bt_get_insert, keqb_refl; reflexivity.
  - destruct (bt_get k fields) as [[]|]; rewrite bt_get_insert_ne by exact Hn; reflexivity.
Qed.
Lemma add_element_wf fields p : bt_wf fields -> bt_wf (add_element fields p).
Proof.
  destruct p as [k e]. intros W. destruct e; cbn; try (apply wf_insert, W).
  destruct (bt_get k fields) as [[]|]; apply wf_insert, W.
Qed.
Lemma fold_add_get other : bt_wf other -> forall fields n,
  bt_get n (fold_left add_element other fields) = merged (bt_get n fields) (bt_get n other).
Proof.
  induction 1 as [|[k e] r Hr IH Hf]; intros fields n; cbn [fold_left bt_get]; [reflexivity|].
  rewrite IH, add_element_get. cbn [fst snd]. destruct (keqb_spec n k) as [->|Hn]; [|reflexivity].
  replace (bt_get k r) with (@None field_type); [reflexivity|]. symmetry. apply bt_get_None. intros Hin.
  apply in_map_iff in Hin as ([k2 v2] & E & Hin). rewrite Forall_forall in Hf. apply Hf in Hin. cbn in E. subst k2.
  exact (cmp_lt_irrefl _ Hin).
Qed.
Lemma fold_add_wf other : forall fields, bt_wf fields -> bt_wf (fold_left add_element other fields).
Proof. induction other as [|p r IH]; intros fields W; [exact W|]. cbn. apply IH, add_element_wf, W. Qed.
Lemma add_schema_get self other n : bt_wf (s_fields other) ->
  get_field n (add_schema self other) = merged (get_field n self) (get_field n other).
Proof. intros W. unfold get_field, add_schema. cbn [s_fields]. apply fold_add_get, W. Qed.
Lemma merge_options_get lb la o : bt_wf lb -> bt_get o (merge_options lb la) = match bt_get o lb with Some v => Some v | None => bt_get o la end.
Proof.
  intros W. unfold merge_options. rewrite bt_get_fold_insert.
  replace (last_assoc o lb) with (bt_get o lb); [reflexivity|].
  induction W as [|[k v] r Hr IH Hf]; [reflexivity|]. cbn [bt_get last_assoc]. rewrite <- IH.
  destruct (keqb_spec o k) as [->|Hn]; [|destruct (bt_get o r); reflexivity].
  replace (bt_get k r) with (@None string); [reflexivity|]. symmetry. apply bt_get_None. intros Hin.
  apply in_map_iff in Hin as ([k2 v2] & E & Hin). rewrite Forall_forall in Hf. apply Hf in Hin. cbn in E. subst k2.
  exact (cmp_lt_irrefl _ Hin).
Qed.
Lemma names_declared n s : In n (field_names s) <-> declared n s.
Proof. unfold field_names. rewrite <- bt_has_keys. apply has_declared. Qed.
Lemma merged_none a b : merged a b <> None <-> a <> None \/ b <> None.
Proof.
  destruct b as [[]|]; cbn [merged]; try (split; [right; discriminate|congruence]); [|tauto].
  destruct a as [[]|]; split; try (right; discriminate); congruence.
Qed.
Lemma remove_fields_get (fs : list string) : forall (m : bt string field_type) n, bt_get n (fold_left (fun m k => bt_remove k m) fs m) = if existsb (keqb n) fs then None else bt_get n m.
Proof.
  induction fs as [|k fs IH]; intros m n; cbn [fold_left existsb]; [reflexivity|].
  rewrite IH, bt_get_remove. destruct (keqb n k); cbn [orb]; destruct (existsb (keqb n) fs); reflexivity.
Qed.
Lemma remove_fields_wf {V} (fs : list string) : forall m : bt string V, bt_wf m -> bt_wf (fold_left (fun m k => bt_remove k m) fs m).
Proof. induction fs as [|k fs IH]; intros m W; [exact W|]. cbn. apply IH, wf_remove, W. Qed.
Lemma names_sorted s : bt_wf (s_fields s) -> StronglySorted (fun a b => String.compare a b = Lt) (field_names s).
Proof. intros W. exact (@bt_keys_sorted string _ _ _ W). Qed.

Lemma last_assoc_in {V} (l : list (string * V)) k v : last_assoc k l = Some v -> In (k, v) l.
Proof.
  induction l as [|[k' w] r IH]; cbn [last_assoc]; [discriminate|]. destruct (last_assoc k r); [intros E; right; auto|].
  destruct (keqb_spec k k') as [->|]; [intros [= ->]; left; reflexivity|discriminate].
Qed.
Lemma last_assoc_nodup {V} (l : list (string * V)) k v : NoDup (map fst l) -> last_assoc k l = Some v <-> In (k, v) l.
Proof.
  induction l as [|[k' w] r IH]; cbn [map fst last_assoc In]; intros D; [split; [discriminate|contradiction]|].
  apply NoDup_cons_iff in D. destruct D as [F D]. specialize (IH D). destruct (last_assoc k r) as [x|] eqn:E.
  - rewrite IH. split; [tauto|]. intros [[= <- <-]|I]; [|exact I].
    exfalso. apply F. apply (in_map fst _ _ (last_assoc_in r _ x E)).
  - destruct (keqb_spec k k') as [->|Hk].
    + split; [intros [= ->]; left; reflexivity|]. intros [[= <-]|I]; [reflexivity|]. apply IH in I. discriminate.
    + split; [discriminate|]. intros [[= <- _]|I]; [contradiction|]. apply IH in I. discriminate.
Qed.
