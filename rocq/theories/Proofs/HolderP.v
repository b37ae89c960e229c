(** Proofs about the dataset holder, the dataset conversions and the i18n dataset. *)
From Coq Require Import String List Sorted.
From Verif Require Import Base.Arith Base.Ord Base.BTree Base.Outcome Base.Str Model.Datasets Model.DatasetTypes Model.Holder
  Model.Language Model.I18n Spec.DatasetSpec Spec.HolderSpec Proofs.DatasetP Spec.DatasetRuns.
Import ListNotations.

(** * Holder *)
Lemma last_of_type_snoc l d t x :
  last_of_type (l ++ [d]) t x <-> (type_of d = t /\ x = d) \/ (type_of d <> t /\ last_of_type l t x).
Proof.
  split.
  - intros (b & a & He & Ht & Ha). destruct a as [|y a _] using rev_ind.
    + apply app_inj_tail in He. destruct He as [_ ->]. auto.
    + right. rewrite app_comm_cons, app_assoc in He. apply app_inj_tail in He. destruct He as [-> ->].
      apply Forall_app in Ha. destruct Ha as [Ha Hy]. apply Forall_inv in Hy. split; [exact Hy|]. exists b, a. auto.
  - intros [[Ht ->]|[Hn (b & a & -> & Ht & Ha)]].
    + exists l, []. splits; auto.
    + exists b, (a ++ [d]). splits; auto.
      * rewrite <- app_assoc. reflexivity.
      * apply Forall_app. split; [exact Ha|]. constructor; auto.
Qed.

Lemma from_loop_fold l : forall h, from_datasets_loop l h = fold_left (fun h d => holder_insert d h) l h.
Proof. induction l as [|d l IH]; intros h; [reflexivity|]. cbn [from_datasets_loop fold_left]. apply IH. Qed.

Lemma from_datasets_get l t d : holder_get t (from_datasets l) = Some d <-> last_of_type l t d.
Proof.
  unfold from_datasets. rewrite from_loop_fold. unfold holder_get.
  induction l as [|x l IH] using rev_ind.
  - split; [discriminate|]. intros (b & a & He & _). destruct b; discriminate.
  - rewrite fold_left_app. cbn [fold_left]. unfold holder_insert at 1. rewrite bt_get_insert, last_of_type_snoc.
    destruct (keqb_spec t (type_of x)) as [->|Hn].
    + split; [intros H; injection H as ->; auto|]. intros [[_ ->]|[Hn _]]; [reflexivity|contradiction].
    + rewrite IH. split; [intros H; right; split; congruence|]. intros [[H _]|[_ H]]; [congruence|exact H].
Qed.

Lemma subset_loop_get h l : forall acc t,
  (forall t d, bt_get t acc = Some d -> bt_get t h = Some d) ->
  holder_get t (subset_loop h l acc) =
    match bt_get t acc with Some d => Some d | None => if in_dec ord_eq_dec t l then bt_get t h else None end.
Proof.
  unfold holder_get. induction l as [|x l IH]; intros acc t Hacc; cbn [subset_loop].
  - destruct (bt_get t acc); [reflexivity|]. destruct (in_dec ord_eq_dec t []) as [[]|]; reflexivity.
  - destruct (bt_get x h) as [d|] eqn:E.
    + rewrite IH.
      * rewrite bt_get_insert. destruct (keqb_spec t x) as [->|Hn].
        -- destruct (bt_get x acc) as [d'|] eqn:Ea; [apply Hacc in Ea; congruence|].
           destruct (in_dec ord_eq_dec x (x :: l)) as [|Hc]; [congruence|]. exfalso; apply Hc; left; reflexivity.
        -- destruct (bt_get t acc); [reflexivity|].
           destruct (in_dec ord_eq_dec t l) as [Hi|Hi], (in_dec ord_eq_dec t (x :: l)) as [Hj|Hj]; try reflexivity; exfalso.
           ++ apply Hj; right; exact Hi.
           ++ destruct Hj as [->|Hj]; congruence.
      * intros t' d'. rewrite bt_get_insert. destruct (keqb_spec t' x) as [->|]; [congruence|apply Hacc].
    + rewrite IH by exact Hacc. destruct (bt_get t acc); [reflexivity|].
      destruct (in_dec ord_eq_dec t l) as [Hi|Hi], (in_dec ord_eq_dec t (x :: l)) as [Hj|Hj]; try reflexivity.
      * exfalso. apply Hj; right; exact Hi.
      * destruct Hj as [->|Hj]; congruence.
Qed.

Lemma subset_get h l t d : holder_get t (holder_subset l h) = Some d <-> In t l /\ holder_get t h = Some d.
Proof.
  unfold holder_subset. rewrite subset_loop_get by (intros; discriminate). cbn [bt_get].
  unfold holder_get. destruct (in_dec ord_eq_dec t l); split; try tauto; discriminate.
Qed.

Lemma wf_subset_loop h l : forall acc, bt_wf acc -> bt_wf (subset_loop h l acc).
Proof.
  induction l as [|x l IH]; intros acc Hw; cbn [subset_loop]; [exact Hw|].
  destruct (bt_get x h); apply IH; [apply wf_insert|]; exact Hw.
Qed.
Lemma built_wf h : built h -> bt_wf h.
Proof.
  induction 1 as [|l|d h _ IH|l h _ IH].
  - constructor.
  - unfold from_datasets. rewrite from_loop_fold. apply (wf_fold_insert type_of (fun d => d)). constructor.
  - apply wf_insert, IH.
  - apply wf_subset_loop. constructor.
Qed.
Lemma built_typed h : built h -> forall t d, holder_get t h = Some d -> type_of d = t.
Proof.
  induction 1 as [|l|d h _ IH|l h _ IH]; intros t x Hx.
  - discriminate.
  - apply from_datasets_get in Hx. destruct Hx as (_ & _ & _ & Ht & _). exact Ht.
  - unfold holder_get, holder_insert in Hx. rewrite bt_get_insert in Hx.
    destruct (keqb_spec t (type_of d)) as [->|]; [congruence|]. apply IH, Hx.
  - apply subset_get in Hx. apply IH, Hx.
Qed.

Lemma get_as_spec {A} (conv : siem_dataset -> result A string) (mk : A -> siem_dataset) t h :
  built h -> (forall d v, conv d = Ok v -> type_of d = t -> d = mk v) -> (forall v, conv (mk v) = Ok v) ->
  forall v, get_as conv t h = Some v <-> holder_get t h = Some (mk v).
Proof.
  intros Hb H1 H2 v. unfold get_as. fold (holder_get t h). destruct (holder_get t h) as [d|] eqn:E; [|split; discriminate].
  pose proof (built_typed h Hb t d E) as Ht. split.
  - destruct (conv d) as [v'|] eqn:Ec; [|discriminate]. intros H; injection H as <-. f_equal. apply H1; assumption.
  - intros H. injection H as ->. rewrite H2. reflexivity.
Qed.

(** * I18n *)
Definition ins1 (d : i18n) (o : op (string * language) string) : i18n :=
  match o with Ins (t, l) v => i18n_insert l t v d | Del _ => d end.

Lemma set_loop_fold l m : forall d, i18n_set_loop l m d = fold_left ins1 (map (fun p => Ins (fst p, l) (snd p)) m) d.
Proof. induction m as [|[k v] m IH]; intros d; [reflexivity|]. cbn [i18n_set_loop map fold_left fst snd]. rewrite IH. reflexivity. Qed.

Lemma i18n_run_writes ops : i18n_run ops = fold_left ins1 (dict_writes ops) i18n_new.
Proof.
  unfold i18n_run. generalize i18n_new. induction ops as [|o ops IH]; intros d; [reflexivity|].
  cbn [fold_left dict_writes flat_map]. rewrite fold_left_app, IH. f_equal.
  destruct o as [l t v|l m]; [reflexivity|]. apply set_loop_fold.
Qed.

Definition i18n_ok (d : i18n) : Prop := forall t m, bt_get t d = Some m -> bt_wf m /\ m <> [].

Lemma i18n_insert_ok l t v d : i18n_ok d -> i18n_ok (i18n_insert l t v d).
Proof.
  intros Hok t' m. unfold i18n_insert, bt_has. destruct (bt_get t d) as [m0|] eqn:E; rewrite bt_get_insert;
    destruct (keqb_spec t' t); try apply Hok; intros H; injection H as <-.
  - split; [apply wf_insert; apply (Hok t m0 E)|]. destruct m0 as [|[k x] m0]; cbn [bt_insert]; [discriminate|].
    destruct (cmp l k); discriminate.
  - split; [repeat constructor|discriminate].
Qed.

Lemma i18n_get_insert l t v d t' l' :
  i18n_get t' l' (i18n_insert l t v d) = if keqb t' t then (if keqb l' l then Some v else i18n_get t' l' d) else i18n_get t' l' d.
Proof.
  unfold i18n_get, i18n_insert, bt_has. destruct (bt_get t d) as [m0|] eqn:E; rewrite bt_get_insert;
    destruct (keqb_spec t' t) as [->|]; try reflexivity; rewrite bt_get_insert; rewrite ?E; reflexivity.
Qed.

Lemma i18n_fold (ws : list (op (string * language) string)) : (forall o, In o ws -> exists k v, o = Ins k v) ->
  i18n_ok (fold_left ins1 ws i18n_new) /\
  forall t l v, i18n_get t l (fold_left ins1 ws i18n_new) = Some v <-> lives eq ws (t, l) v.
Proof.
  induction ws as [|o ws IH] using rev_ind; intros Hw.
  - split; [intros t m; discriminate|]. intros t l v. split; [discriminate|]. intros H; destruct (lives_nil _ _ _ H).
  - destruct IH as [Hok Hl]; [intros o' Ho; apply Hw; apply in_or_app; auto|].
    destruct (Hw o) as ([t0 l0] & v0 & ->); [apply in_or_app; simpl; auto|].
    rewrite fold_left_app. cbn [fold_left ins1]. split; [apply i18n_insert_ok, Hok|].
    intros t l v. rewrite i18n_get_insert, lives_snoc. cbn [op_key].
    destruct (keqb_spec t t0) as [->|Hn]; [destruct (keqb_spec l l0) as [->|Hn]|].
    + split; [intros H; injection H as ->; left; eexists; split; reflexivity|].
      intros [(k & He & _)|[Hn _]]; [injection He as _ ->; reflexivity|congruence].
    + rewrite Hl. split; [intros H; right; split; [congruence|exact H]|].
      intros [(k & He & Hs)|[_ H]]; [congruence|exact H].
    + rewrite Hl. split; [intros H; right; split; [congruence|exact H]|].
      intros [(k & He & Hs)|[_ H]]; [congruence|exact H].
Qed.

Lemma dict_writes_ins ops o : In o (dict_writes ops) -> exists k v, o = Ins k v.
Proof.
  unfold dict_writes. rewrite in_flat_map. intros ([l t v|l m] & _ & Hin).
  - destruct Hin as [<-|[]]. eauto.
  - apply in_map_iff in Hin. destruct Hin as (p & <- & _). eauto.
Qed.

Lemma i18n_history ops t l v : i18n_get t l (i18n_run ops) = Some v <-> lives eq (dict_writes ops) (t, l) v.
Proof. rewrite i18n_run_writes. apply i18n_fold. intros o. apply dict_writes_ins. Qed.

Lemma first_value_min {V} (m : bt language V) v : bt_wf m -> first_value m = Some v ->
  exists l, bt_get l m = Some v /\ forall l' v', bt_get l' m = Some v' -> cmp l l' <> Gt.
Proof.
  intros Hw. destruct m as [|[l x] m]; [discriminate|]. cbn [first_value]. intros H; injection H as ->.
  exists l. split; [cbn [bt_get]; rewrite keqb_refl; reflexivity|].
  intros l' v' Hg. apply bt_get_In in Hg. destruct Hg as [Hg|Hg].
  - injection Hg as -> _. rewrite cmp_refl; discriminate.
  - inversion Hw as [|? ? _ Hf]; subst. rewrite Forall_forall in Hf. specialize (Hf _ Hg). unfold key_lt in Hf; cbn [fst] in Hf.
    rewrite Hf; discriminate.
Qed.

Lemma get_or_default_spec d t lang : i18n_ok d ->
  match i18n_get_or_default t lang d with
  | Some v => the_default (fun l x => i18n_get t l d = Some x) lang v
  | None => forall l x, i18n_get t l d <> Some x
  end.
Proof.
  intros Hok. unfold i18n_get_or_default, i18n_get, the_default. destruct (bt_get t d) as [m|] eqn:E; [|intros; discriminate].
  destruct (Hok t m E) as [Hw Hne].
  destruct (bt_get lang m) as [x|] eqn:E1; [left; reflexivity|].
  destruct (bt_get L_EN m) as [x|] eqn:E2; [right; left; split; [intros; discriminate|reflexivity]|].
  destruct (first_value m) as [x|] eqn:E3.
  - right; right. splits; try (intros; discriminate). apply (first_value_min m x Hw E3).
  - destruct m as [|[k y] m]; [contradiction|discriminate].
Qed.

Lemma get_or_default_history ops t lang :
  match i18n_get_or_default t lang (i18n_run ops) with
  | Some v => the_default (fun l x => lives eq (dict_writes ops) (t, l) x) lang v
  | None => forall l x, ~ lives eq (dict_writes ops) (t, l) x
  end.
Proof.
  assert (Hok : i18n_ok (i18n_run ops)).
  { rewrite i18n_run_writes. apply i18n_fold. intros o. apply dict_writes_ins. }
  pose proof (get_or_default_spec _ t lang Hok) as H. destruct (i18n_get_or_default t lang (i18n_run ops)) as [v|].
  - unfold the_default in *. setoid_rewrite <- i18n_history. exact H.
  - intros l x Hl. apply i18n_history in Hl. exact (H l x Hl).
Qed.

(** * Language codes *)
Definition is_other (l : language) : bool := match l with L_Other _ => true | _ => false end.
Lemma lang_from_name l s : is_other l = false -> to_upper s = lang_name l -> lang_from s = l.
Proof. intros Ho H. unfold lang_from. rewrite H. destruct l; try discriminate; vm_compute; reflexivity. Qed.
Lemma lang_from_inv s :
  (is_other (lang_from s) = false /\ to_upper s = lang_name (lang_from s)) \/ lang_from s = L_Other "¿?".
Proof.
  unfold lang_from. generalize (to_upper s) as u. intros u.
  repeat (match goal with |- context [if String.eqb u ?x then _ else _] =>
     destruct (String.eqb_spec u x) as [->|_]; [left; split; reflexivity|] end).
  right; reflexivity.
Qed.

(** * The holder keeps the last dataset of each type *)
Lemma holder_get_run l1 l2 t d :
  holder_get t (fold_left (fun h d => holder_insert d h) l2 (from_datasets l1)) = Some d <-> last_of_type (l1 ++ l2) t d.
Proof.
  rewrite <- from_datasets_get. unfold from_datasets. rewrite (from_loop_fold l1), (from_loop_fold (l1 ++ l2)), fold_left_app. reflexivity.
Qed.
Lemma built_types_nodup h : built h -> NoDup (map (fun p => type_of (snd p)) h).
Proof.
  intros Hb. pose proof (built_wf h Hb) as Hw. pose proof (built_typed h Hb) as Ht.
  replace (map (fun p => type_of (snd p)) h) with (bt_keys h); [apply bt_keys_nodup, Hw|].
  unfold bt_keys. apply map_ext_in. intros [t d] Hin. cbn [fst snd]. symmetry. apply Ht.
  unfold holder_get. apply wf_In_get; assumption.
Qed.
