(** Proofs about the calendar. *)
From Coq Require Import String ZArith List Bool.
From Verif Require Import Base.Arith Base.Ord Base.BTree Model.Calendar Spec.DatasetSpec Spec.DatasetRuns.
Import ListNotations.
Local Open Scope Z_scope.

Definition bucket (day : Z) (m : calendar) : list cal_event := match bt_get day m with Some v => v | None => [] end.
Lemma cal_get_bucket t m : cal_get t m = reported (map ev_data (filter (activeb t) (bucket (Z.quot t 86400000) m))).
Proof. unfold cal_get, bucket. destruct (bt_get _ m); reflexivity. Qed.

Lemma bucket_push day day' x m : bucket day (cal_push day' x m) = bucket day m ++ (if day =? day' then [x] else []).
Proof.
  unfold cal_push, bucket. destruct (bt_get day' m) as [dt|] eqn:E; rewrite bt_get_insert;
    destruct (keqb_spec day day') as [->|Hn].
  - rewrite E, Z.eqb_refl. reflexivity.
  - apply Z.eqb_neq in Hn. rewrite Hn, app_nil_r. reflexivity.
  - rewrite E, Z.eqb_refl. reflexivity.
  - apply Z.eqb_neq in Hn. rewrite Hn, app_nil_r. reflexivity.
Qed.

Lemma bucket_days n : forall s e sd ed d x m day,
  bucket day (cal_days s e sd ed d n x m) =
  bucket day m ++ (if (d <=? day) && (day <? d + Z.of_nat n) then [(cal_segment s e sd ed day, x)] else []).
Proof.
  induction n as [|n IH]; intros s e sd ed d x m day; cbn [cal_days].
  - replace ((d <=? day) && (day <? d + Z.of_nat 0)) with false by lia. rewrite app_nil_r. reflexivity.
  - rewrite IH, bucket_push, <- app_assoc. f_equal. destruct (Z.eqb_spec day d) as [->|Hn].
    + replace ((d + 1 <=? d) && (d <? d + 1 + Z.of_nat n)) with false by lia.
      replace ((d <=? d) && (d <? d + Z.of_nat (S n))) with true by lia.
      rewrite app_nil_r. destruct (cal_segment s e sd ed d); reflexivity.
    + replace ((d + 1 <=? day) && (day <? d + 1 + Z.of_nat n)) with ((d <=? day) && (day <? d + Z.of_nat (S n))) by lia.
      reflexivity.
Qed.

(** What the event [e] contributes to the entry of [day]. *)
Definition contribution (e : cal_event) (day : Z) : list cal_event :=
  let sd := Z.quot (ev_start e) 86400000 in
  let ed := Z.quot (ev_end e) 86400000 in
  if sd =? ed then (if day =? sd then [e] else [])
  else if (sd <=? day) && (day <=? ed) then [(cal_segment (ev_start e) (ev_end e) sd ed day, ev_data e)] else [].

Lemma bucket_insert e m day :
  bucket day (cal_insert (ev_start e) (ev_end e) (ev_data e) m) = bucket day m ++ contribution e day.
Proof.
  destruct e as [[s t] x]. unfold cal_insert, contribution, ev_start, ev_end, ev_data. cbn [fst snd].
  set (sd := Z.quot s 86400000). set (ed := Z.quot t 86400000).
  replace (sd - ed =? 0) with (sd =? ed) by lia. destruct (Z.eqb_spec sd ed) as [He|Hn].
  - apply bucket_push.
  - rewrite bucket_days. f_equal.
    replace ((sd <=? day) && (day <? sd + Z.of_nat (Z.to_nat (ed + 1 - sd)))) with ((sd <=? day) && (day <=? ed)) by lia.
    reflexivity.
Qed.

(** Whether the lookup at [t] reports [e]. *)
Definition covered (t : Z) (e : cal_event) : bool := existsb (activeb t) (contribution e (Z.quot t 86400000)).

Lemma cal_get_run evs t : cal_get t (cal_run evs) = reported (map ev_data (filter (covered t) evs)).
Proof.
  rewrite cal_get_bucket. f_equal.
  enough (H : forall m, map ev_data (filter (activeb t) (bucket (Z.quot t 86400000)
             (fold_left (fun m e => cal_insert (ev_start e) (ev_end e) (ev_data e) m) evs m))) =
           map ev_data (filter (activeb t) (bucket (Z.quot t 86400000) m)) ++ map ev_data (filter (covered t) evs))
    by apply (H cal_new).
  induction evs as [|e evs IH]; intros m; cbn [fold_left filter map]; [rewrite app_nil_r; reflexivity|].
  rewrite IH, bucket_insert, filter_app, map_app, <- app_assoc. f_equal. unfold covered at 2.
  unfold contribution. set (d := Z.quot t 86400000). set (sd := Z.quot (ev_start e) 86400000). set (ed := Z.quot (ev_end e) 86400000).
  destruct (sd =? ed); [destruct (d =? sd)|destruct (_ && _)]; cbn [filter existsb]; rewrite ?orb_false_r; try reflexivity.
  - destruct (activeb t e); reflexivity.
  - match goal with |- context [activeb t ?x] => destruct (activeb t x) end; reflexivity.
Qed.

Lemma activeb_iff t e : activeb t e = true <-> active t e.
Proof. unfold activeb, active. lia. Qed.

Lemma quot_bounds x : let d := Z.quot x 86400000 in
  (0 <= x -> 86400000 * d <= x < 86400000 * d + 86400000) /\ (x <= 0 -> 86400000 * d - 86400000 < x <= 86400000 * d).
Proof.
  cbn zeta. split; intros H.
  - rewrite Z.quot_div_nonneg by lia. pose proof (Z.div_mod x 86400000 ltac:(lia)). pose proof (Z.mod_pos_bound x 86400000 ltac:(lia)). lia.
  - replace x with (- (- x)) by lia. rewrite Z.quot_opp_l by lia. rewrite Z.quot_div_nonneg by lia.
    pose proof (Z.div_mod (- x) 86400000 ltac:(lia)). pose proof (Z.mod_pos_bound (- x) 86400000 ltac:(lia)). lia.
Qed.


Lemma covered_sound t e : covered t e = true -> active t e.
Proof.
  destruct e as [[s f] x]. unfold covered, contribution, active, ev_start, ev_end, ev_data. cbn [fst snd].
  pose proof (quot_bounds t) as Ht. pose proof (quot_bounds s) as Hs. pose proof (quot_bounds f) as Hf. cbn zeta in *.
  generalize dependent (Z.quot t 86400000). intros d Ht. generalize dependent (Z.quot s 86400000). intros sd Hs.
  generalize dependent (Z.quot f 86400000). intros ed Hf.
  destruct (Z.eqb_spec sd ed).
  - destruct (Z.eqb_spec d sd); cbn [existsb]; [|discriminate]. rewrite orb_false_r. unfold activeb, ev_start, ev_end; cbn [fst snd]. lia.
  - destruct ((sd <=? d) && (d <=? ed)) eqn:E; cbn [existsb]; [|discriminate]. rewrite orb_false_r.
    unfold activeb, ev_start, ev_end, cal_segment. destruct (Z.eqb_spec d ed); [|destruct (Z.eqb_spec d sd)]; cbn [fst snd]; lia.
Qed.

(** The parts of an event the calendar reports. *)
Lemma covered_complete t e : 0 <= ev_start e ->
  (ev_start e / 86400000 = ev_end e / 86400000 \/ (ev_start e / 86400000 + 1) * 86400000 <= t) ->
  active t e -> covered t e = true.
Proof.
  destruct e as [[s f] x]. unfold covered, contribution, active, ev_start, ev_end, ev_data. cbn [fst snd].
  intros H0 Hc Ha. rewrite <- !Z.quot_div_nonneg in Hc by lia.
  pose proof (quot_bounds t) as Ht. pose proof (quot_bounds s) as Hs. pose proof (quot_bounds f) as Hf. cbn zeta in *.
  generalize dependent (Z.quot t 86400000). intros d Ht. generalize dependent (Z.quot s 86400000). intros sd Hc Hs.
  generalize dependent (Z.quot f 86400000). intros ed Hc Hf.
  destruct (Z.eqb_spec sd ed).
  - replace (d =? sd) with true by lia. cbn [existsb]. unfold activeb, ev_start, ev_end; cbn [fst snd]. lia.
  - replace ((sd <=? d) && (d <=? ed)) with true by lia. cbn [existsb].
    unfold activeb, ev_start, ev_end, cal_segment. destruct (Z.eqb_spec d ed); [|destruct (Z.eqb_spec d sd)]; cbn [fst snd]; lia.
Qed.

(** The hours the calendar loses: the first day of a multi-day cal_event, after its first instant. *)
Lemma covered_lost t e : 0 <= ev_start e -> ev_start e / 86400000 <> ev_end e / 86400000 ->
  ev_start e < t < (ev_start e / 86400000 + 1) * 86400000 -> covered t e = false.
Proof.
  destruct e as [[s f] x]. unfold covered, contribution, ev_start, ev_end, ev_data. cbn [fst snd].
  intros H0 Hc Ha. destruct (Z.le_gt_cases 0 f) as [Hf0|Hf0].
  - rewrite <- !Z.quot_div_nonneg in * by lia.
    pose proof (quot_bounds t) as Ht. pose proof (quot_bounds s) as Hs. pose proof (quot_bounds f) as Hf. cbn zeta in *.
    generalize dependent (Z.quot t 86400000). intros d Ht. generalize dependent (Z.quot s 86400000). intros sd Hc Ha Hs.
    generalize dependent (Z.quot f 86400000). intros ed Hc Hf.
    replace (sd =? ed) with false by lia. assert (d = sd) by lia. subst d.
    destruct ((sd <=? sd) && (sd <=? ed)); cbn [existsb]; [|reflexivity].
    unfold activeb, ev_start, ev_end, cal_segment. replace (sd =? ed) with false by lia. rewrite Z.eqb_refl. cbn [fst snd]. lia.
  - apply Bool.not_true_is_false. intros H. apply (covered_sound t (s, f, x)) in H.
    unfold active, ev_start, ev_end in H; cbn [fst snd] in H. lia.
Qed.

(** Exactly when a lookup reports an event *)
Lemma covered_iff t e : covered t e = true <->
  active t e /\ (Z.quot (ev_start e) 86400000 = Z.quot (ev_end e) 86400000 \/ t mod 86400000 = 0
    \/ (0 <= t /\ Z.quot (ev_start e) 86400000 < Z.quot t 86400000) \/ (t < 0 /\ Z.quot (ev_start e) 86400000 = Z.quot t 86400000)).
Proof.
  destruct e as [[s f] x]. unfold covered, contribution, active, ev_start, ev_end, ev_data. cbn [fst snd].
  pose proof (quot_bounds t) as Ht. pose proof (quot_bounds s) as Hs. pose proof (quot_bounds f) as Hf. cbn zeta in *.
  assert (Hm : t mod 86400000 = 0 <-> t = 86400000 * Z.quot t 86400000).
  { split; intros H.
    - apply Z.mod_divide in H; [|lia]. destruct H as [k ->]. rewrite Z.quot_mul by lia. lia.
    - rewrite H, Z.mul_comm. apply Z.mod_mul. lia. }
  rewrite Hm. clear Hm.
  generalize dependent (Z.quot t 86400000). intros d Ht. generalize dependent (Z.quot s 86400000). intros sd Hs.
  generalize dependent (Z.quot f 86400000). intros ed Hf.
  destruct (Z.eqb_spec sd ed).
  - destruct (Z.eqb_spec d sd); cbn [existsb]; [rewrite orb_false_r; unfold activeb, ev_start, ev_end; cbn [fst snd]; lia|].
    split; [discriminate|]. lia.
  - destruct ((sd <=? d) && (d <=? ed)) eqn:E; cbn [existsb].
    + rewrite orb_false_r. unfold activeb, ev_start, ev_end, cal_segment.
      destruct (Z.eqb_spec d ed); [|destruct (Z.eqb_spec d sd)]; cbn [fst snd]; lia.
    + split; [discriminate|]. lia.
Qed.

Lemma cal_exact evs t :
  Forall (fun e => active t e -> 0 <= ev_start e /\
     (ev_start e / 86400000 = ev_end e / 86400000 \/ (ev_start e / 86400000 + 1) * 86400000 <= t)) evs ->
  cal_get t (cal_run evs) = reported (map ev_data (filter (activeb t) evs)).
Proof.
  intros H. rewrite cal_get_run. do 2 f_equal. induction H as [|e evs He _ IH]; cbn [filter]; [reflexivity|].
  rewrite IH. replace (covered t e) with (activeb t e); [reflexivity|].
  destruct (activeb t e) eqn:E.
  - apply activeb_iff in E. symmetry. destruct (He E) as [H0 Hc]. apply covered_complete; assumption.
  - symmetry. apply Bool.not_true_is_false. intros Hc. apply covered_sound, activeb_iff in Hc. congruence.
Qed.

Lemma cal_sound evs t l : cal_get t (cal_run evs) = Some l ->
  exists kept, subseq kept evs /\ Forall (active t) kept /\ l = map ev_data kept /\ kept <> [].
Proof.
  rewrite cal_get_run. intros H. exists (filter (covered t) evs). splits.
  - clear H. induction evs as [|e evs IH]; cbn [filter]; [constructor|]. destruct (covered t e); constructor; exact IH.
  - apply Forall_forall. intros e He. apply filter_In in He. apply covered_sound. tauto.
  - unfold reported in H. destruct (map ev_data _); [discriminate|]. congruence.
  - intros Hn. rewrite Hn in H. discriminate.
Qed.

(** No intermediate value leaves the i64 range. *)
Definition i64 (x : Z) : Prop := - 2 ^ 63 <= x < 2 ^ 63.
Lemma calendar_no_overflow s e day : i64 s -> i64 e ->
  let sd := Z.quot s 86400000 in let ed := Z.quot e 86400000 in
  i64 (sd - ed) /\ i64 (ed + 1) /\
  (sd <= day <= ed -> i64 (day * 86400000) /\ (day <> ed -> i64 (day + 1) /\ i64 ((day + 1) * 86400000))).
Proof.
  unfold i64. cbn zeta. pose proof (quot_bounds s) as Hs. pose proof (quot_bounds e) as He. cbn zeta in *.
  generalize dependent (Z.quot s 86400000). intros sd Hs. generalize dependent (Z.quot e 86400000). intros ed He.
  lia.
Qed.
