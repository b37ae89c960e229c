(** C173, C174: dates are shown as RFC 3339 times. *)
From Coq Require Import String ZArith List Bool Lia.
From Verif Require Import Base.Arith Base.Str Model.Field Model.Date Spec.DateSpec Proofs.DateP.
Import ListNotations.
Local Open Scope string_scope.
Local Open Scope Z_scope.

(** *** C173: the text of a date is its time in UTC, and the only one. [lo] and [hi]: the times chrono represents. *)
Theorem C173_text : forall P lo hi ms s, lo <= ms <= hi ->
  (display (with_dates lo hi P) (Date ms) = s <-> utc_text s ms).
Proof.
  intros P lo hi ms s [A B]. cbn [display date_str with_dates]. unfold date_display. apply Z.leb_le in A, B. rewrite A, B. cbn [andb].
  split; [intros <-; apply rfc3339_text | intros H; symmetry; exact (text_rfc3339 _ _ H)].
Qed.
Print Assumptions C173_text.
Theorem C173_time : forall s a b, utc_text s a -> utc_text s b -> a = b.
Proof. exact utc_text_time. Qed.
Print Assumptions C173_time.
(** Hence dates are equal exactly when they are the same time, and equal to a text exactly when it is theirs. *)
Theorem C173_equality : forall P lo hi a b t, lo <= a <= hi -> lo <= b <= hi ->
  (field_eqb (with_dates lo hi P) (Date a) (Date b) = true <-> a = b) /\
  (field_eqb (with_dates lo hi P) (Text t) (Date a) = true <-> utc_text t a).
Proof.
  intros P lo hi a b t Ha Hb. pose proof (C173_text P lo hi a) as A. pose proof (C173_text P lo hi b) as B.
  cbn [field_eqb]. rewrite !String.eqb_eq. split.
  - split; [|intros ->; reflexivity]. intros E. apply (C173_time (display (with_dates lo hi P) (Date a))); [apply A; auto|].
    apply B; auto.
  - rewrite <- (A t Ha). split; auto.
Qed.
Print Assumptions C173_equality.
(** A year from 0 to 9999 has four digits and no sign. *)
Theorem C173_length : forall P lo hi ms, lo <= ms <= hi ->
  (-62167219200000 <= ms <= 253402300799999 <-> String.length (display (with_dates lo hi P) (Date ms)) = 24%nat).
Proof.
  intros P lo hi ms H. pose proof (proj1 (C173_text P lo hi ms _ H) eq_refl) as T.
  remember (display (with_dates lo hi P) (Date ms)) as s eqn:Es. clear Es.
  destruct T as (sy & y & sm & m & sd & d & sh & h & smi & mi & ss & se & sml & ml & days & -> & Y & M & D & Hh & MI & SE & ML & V & Lh & Lm & Ls & N & E).
  apply number_dn in N as [_ N]. pose proof (day_in_year _ _ _ V) as [Y1 Y2]. rewrite N in Y1, Y2.
  pose proof (number_range _ _ _ Hh). pose proof (number_range _ _ _ MI). pose proof (number_range _ _ _ SE). pose proof (number_range _ _ _ ML).
  assert (P3 : 10 ^ Z.of_nat 3 = 1000) by reflexivity.
  assert (R : -62167219200000 <= ms <= 253402300799999 <-> 0 <= y <= 9999).
  { assert (Z0 : years_before 0 = -719528) by reflexivity. assert (Z1 : years_before 10000 = 2932897) by reflexivity. split; intros R.
    - split.
      + destruct (Z_lt_ge_dec y 0) as [L|]; [exfalso|lia]. pose proof (years_mono (y + 1) (0 - (y + 1)) ltac:(lia)) as K.
        replace (y + 1 + (0 - (y + 1))) with 0 in K by lia. lia.
      + destruct (Z_lt_ge_dec 9999 y) as [L|]; [exfalso|lia]. pose proof (years_mono 10000 (y - 10000) ltac:(lia)) as K.
        replace (10000 + (y - 10000)) with y in K by lia. lia.
    - pose proof (years_mono 0 y ltac:(lia)) as K. pose proof (years_mono (y + 1) (10000 - (y + 1)) ltac:(lia)) as K'.
      replace (y + 1 + (10000 - (y + 1))) with 10000 in K' by lia. replace (0 + y) with y in K by lia. lia. }
  rewrite R. clear R.
  rewrite !str_length_app. cbn [String.length].
  rewrite (number_length _ _ _ M), (number_length _ _ _ D), (number_length _ _ _ Hh), (number_length _ _ _ MI), (number_length _ _ _ SE), (number_length _ _ _ ML).
  destruct Y as [Y|(w & t & n & Y & W & C)].
  - rewrite (number_length _ _ _ Y). pose proof (number_range _ _ _ Y) as X. change (10 ^ Z.of_nat 4) with 10000 in X. split; [reflexivity | lia].
  - destruct C as [(-> & -> & ?)|(-> & -> & ?)]; rewrite str_length_app, (number_length _ _ _ Y); cbn [String.length]; (split; intros; lia).
Qed.
Print Assumptions C173_length.

(** *** C174: refuted. The times chrono does not represent are all shown as 1970-01-01, and equal to it and to each other. *)
Theorem C174_distinct_refuted : forall P lo hi, 
  (forall ms, ~ lo <= ms <= hi -> display (with_dates lo hi P) (Date ms) = "1970-01-01T00:00:00.000Z") /\
  (lo <= 0 -> hi < 2 ^ 63 - 1 -> field_ok (Date (2 ^ 63 - 1)) /\ field_ok (Date 0) /\
     field_eqb (with_dates lo hi P) (Date (2 ^ 63 - 1)) (Date 0) = true).
Proof.
  intros P lo hi. assert (A : forall ms, ~ lo <= ms <= hi -> display (with_dates lo hi P) (Date ms) = "1970-01-01T00:00:00.000Z").
  { intros ms H. cbn [display date_str with_dates]. unfold date_display.
    destruct ((lo <=? ms) && (ms <=? hi)) eqn:E; [apply andb_true_iff in E; rewrite !Z.leb_le in E; contradiction | reflexivity]. }
  split; [exact A|]. intros L H. splits.
  - unfold field_ok, i64_ok. lia.
  - unfold field_ok, i64_ok. lia.
  - unfold field_eqb. rewrite (A (2 ^ 63 - 1)) by lia. apply String.eqb_eq.
    cbn [display date_str with_dates]. unfold date_display. destruct (_ && _); reflexivity.
Qed.
Print Assumptions C174_distinct_refuted.

(** *** The hypotheses hold: a leap day, the last millisecond of 1969, a year before 0. *)
Definition printers0 : printers := {| f64_str := fun _ => "f"; date_str := fun _ => "d" |}.
Definition chrono : printers := with_dates (-8334601228800000) 8210266876799999 printers0.
Example C173_example :
  display chrono (Date 951827696789) = "2000-02-29T12:34:56.789Z" /\ utc_text "2000-02-29T12:34:56.789Z" 951827696789 /\
  display chrono (Date (-1)) = "1969-12-31T23:59:59.999Z" /\
  display chrono (Date (-62167219200001)) = "-0001-12-31T23:59:59.999Z" /\
  display chrono (Date 253402300800000) = "+10000-01-01T00:00:00.000Z" /\
  display chrono (Date 8210266876799999) = "+262142-12-31T23:59:59.999Z" /\
  field_eqb chrono (Date (2 ^ 63 - 1)) (Date 8210266876800000) = true.
Proof.
  splits; try (vm_compute; reflexivity). apply (C173_text printers0 (-8334601228800000) 8210266876799999); [lia | vm_compute; reflexivity].
Qed.
