(** Properties C24 and C63: decimals in gauges and histogram sums (src/components/metrics/gauge.rs, histogram.rs). *)
From Coq Require Import ZArith QArith Qabs List Bool Floats.SpecFloat Lia Lqa.
From Verif Require Import Base.Arith Base.Sched Base.Outcome Model.Field Model.Metrics Spec.FieldSpec Spec.MetricsSpec Spec.DecimalSpec
  Proofs.FieldP Proofs.MetricsP Proofs.HistP Proofs.FloatP Proofs.RoundP Proofs.DecimalP Props.PropsMetrics.
Import ListNotations.
Local Open Scope Q_scope.

(** A gauge set to [v] reads back a number less than 0.00002 away. *)
Theorem C63_decimals_near : forall x v i (m : list Z), value x v -> Qabs v * 100000 < 2 ^ 51 -> (i < length m)%nat ->
  exists r, value (gauge_get (act_run m (gcall_acts (length m) (GSet i x))) i) r /\ Qabs (r - v) < 2 # 100000.
Proof.
  intros x v i m V B L. destruct (decimal_near x v V B) as (r & R). exists r. unfold gauge_get. cbn [gcall_acts act_run fold_left].
  simpl. rewrite upd_nth by exact L. rewrite Nat.eqb_refl. exact R.
Qed.
Print Assumptions C63_decimals_near.

(** By how much a call moves gauge [i]. *)
Inductive moves (i : nat) : gcall -> Q -> Prop :=
| mv_inc : moves i (GInc i) 1
| mv_dec : moves i (GDec i) (-1 # 1)
| mv_inc_by x v : value x v -> moves i (GIncBy i x) v
| mv_dec_by x v : value x v -> moves i (GDecBy i x) (- v)
| mv_other c : (forall x, c <> GSet i x /\ c <> GIncBy i x /\ c <> GDecBy i x) -> c <> GInc i -> c <> GDec i -> c <> GReset i -> c <> GResetAll -> moves i c 0.
Lemma one_units : normalize_f64 f64_one = 100000%Z.
Proof. vm_compute. reflexivity. Qed.
Lemma moves_units i c v : moves i c v -> Qabs v * 100000 < 2 ^ 52 -> exists z, gauge_adds i c = Some z /\ units z v.
Proof.
  intros M B. destruct M as [| |x v V|x v V|c N1 N2 N3 N4 N5]; cbn [gauge_adds]; rewrite ?Nat.eqb_refl, ?one_units.
  - eexists. split; [reflexivity|]. vm_compute. reflexivity.
  - eexists. split; [reflexivity|]. vm_compute. reflexivity.
  - eexists. split; [reflexivity|]. apply normalize_near; auto.
  - rewrite Qabs_opp in B. eexists. split; [reflexivity|]. pose proof (normalize_near x v V B) as N. unfold units.
    rewrite inject_Z_opp. apply Qabs_Qlt_condition in N. apply Qabs_Qlt_condition. split; lra.
  - exists 0%Z. split; [|vm_compute; reflexivity].
    destruct c as [i0|i0|i0 v|i0 v|i0 v|i0|]; simpl; [..|congruence]; destruct (Nat.eqb_spec i i0) as [<-|]; auto; try congruence;
      try (exfalso; apply (N1 v); reflexivity); exfalso; destruct (N1 v) as (A1 & A2 & A3); congruence.
Qed.
(** Any number of threads adding and subtracting decimals, in any schedule: the gauge reads their sum, up to one and a quarter units per call
    and half a unit, the unit being 0.00001. *)
Theorem C63_decimal_sum_near : forall n (ths : list (list gcall)) tr i vs,
  (i < n)%nat -> Forall2 (moves i) (concat ths) vs -> Forall (fun v => Qabs v * 100000 < 2 ^ 52) vs ->
  Qabs (qsum vs) * 100000 <= 2 ^ 51 -> (Z.of_nat (length vs) <= 2 ^ 50)%Z ->
  interleaves (map (flat_map (gcall_acts n)) ths) tr ->
  exists r, value (gauge_get (act_run (zeros n) tr) i) r /\
    close (r * 100000) (qsum vs * 100000) ((5 # 4) * inject_Z (Z.of_nat (length vs)) + (1 # 2)).
Proof.
  intros n ths tr i vs L M B S N IL.
  assert (A : exists zs, map (gauge_adds i) (concat ths) = map Some zs /\ Forall2 units zs vs).
  { clear - M B. induction M as [|c v cs vs M MS IH]; [exists []; split; [reflexivity|constructor]|].
    inversion B as [|? ? B1 B2]; subst. destruct (IH B2) as (zs & E & F). destruct (moves_units i c v M B1) as (z & EZ & U).
    exists (z :: zs). split; [cbn [map]; congruence|constructor; auto]. }
  destruct A as (zs & E & F). unfold gauge_get. apply (sum_near _ zs); auto. apply (C63_no_lost_updates n ths tr i zs L E IL).
Qed.
Print Assumptions C63_decimal_sum_near.
(** 1.15 set, 1.14999 read; 0.1 added three times by two threads. *)
Definition tenth : f64 := S754_finite false 7205759403792794 (-56).
Definition number (x : f64) : Q := match x with S754_finite s m e => inject_Z (if s then Zneg m else Zpos m) * 2 ^ e | _ => 0 end.
Example C63_decimals_case :
  (exists v, value (hundred_thousandths 115000) v /\ Qabs v * 100000 < 2 ^ 51) /\
  (exists v, value tenth v /\ Forall2 (moves 0) (concat [[GIncBy 0 tenth; GDec 1]; [GIncBy 0 tenth; GIncBy 0 tenth]]) [v; 0; v; v] /\ Qabs (qsum [v; 0; v; v]) * 100000 <= 2 ^ 51).
Proof.
  split.
  - exists (number (hundred_thousandths 115000)). split; [vm_compute; reflexivity|]. vm_compute. reflexivity.
  - exists (number tenth). splits; [vm_compute; reflexivity| |vm_compute; discriminate].
    repeat (constructor; [first [apply mv_inc_by; vm_compute; reflexivity | apply mv_other; try (intro x; repeat split); discriminate]|]). constructor.
Qed.

(** The sum of a histogram: the observed values up to one and a quarter units each and half a unit. *)
Theorem C24_sum_near : forall (le : list f64) (ths : list (list f64)) tr vs,
  (forall b, In b le -> is_f64 b /\ b <> S754_nan) -> (forall v, In v (concat ths) -> is_f64 v) ->
  Forall2 value (concat ths) vs -> Forall (fun v => Qabs v * 100000 < 2 ^ 52) vs ->
  Qabs (qsum vs) * 100000 <= 2 ^ 51 -> (Z.of_nat (length vs) <= 2 ^ 50)%Z ->
  interleaves (map (flat_map (observe_acts le)) ths) tr ->
  exists r, value (get_sample_sum (hact_run (hist_new le) tr)) r /\
    close (r * 100000) (qsum vs * 100000) ((5 # 4) * inject_Z (Z.of_nat (length vs)) + (1 # 2)).
Proof.
  intros le ths tr vs LE IS V B S N IL. unfold get_sample_sum. apply (sum_near _ (map normalize_f64 (concat ths))); auto.
  - clear - V B. induction V as [|x v xs vs V VS IH]; [constructor|]. inversion B as [|? ? B1 B2]; subst. constructor; [apply normalize_near; auto|auto].
  - apply (hist_exact le ths tr LE); auto. intros v I. split; [auto|]. intros ->. clear - V I. induction V as [|x v xs vs V VS IH]; [destruct I|].
    destruct I as [->|I]; [exact V|auto].
Qed.
Print Assumptions C24_sum_near.
Example C24_sum_case : is_f64 tenth /\ exists v, value tenth v /\ Qabs v * 100000 < 2 ^ 52 /\
  value (get_sample_sum (hact_run (hist_new [tenth]) (flat_map (observe_acts [tenth]) [tenth; tenth]))) (inject_Z 3602879701896397 * 2 ^ (-54)).
Proof. split; [vm_compute; reflexivity|]. exists (number tenth). splits; vm_compute; reflexivity. Qed.
