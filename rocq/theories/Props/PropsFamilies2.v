(** More refuted properties, for whole families of inputs: what the code does instead, always. *)
From Coq Require Import String Ascii List NArith ZArith Arith Bool Lia Floats.SpecFloat.
From Verif Require Import Base.Arith Base.Ord Base.BTree Base.Sched Base.Str Base.Outcome Spec.FieldSpec Spec.LogSpec Spec.MetricsSpec
  Model.Ip Model.Field Model.Log Model.Metrics Proofs.LogP Proofs.HistP Props.PropsField Props.PropsLog Props.PropsMetrics.
Import ListNotations.
Local Open Scope string_scope.

(** * Numeric conversions *)
Lemma float_is_unique x a b : float_is x a -> float_is x b -> a = b.
Proof.
  destruct x as [s|s| |s m e]; cbn [float_is]; try congruence; try easy. cbv zeta.
  intros [[E ->]|[E A]] [[F ->]|[F B]]; try lia.
  apply (Z.mul_reg_r _ _ (2 ^ (- e))); [apply Z.pow_nonzero; lia|congruence].
Qed.
(** An integer is converted to the number it is exactly when the number exists in the target type; otherwise the answer is another number,
    never an error. *)
Theorem C102_exact_refuted : forall f z, field_ok f -> integer_field f z ->
  (exists n, to_u64 f = Ok n /\ (Z.of_N n = z <-> (0 <= z < 2 ^ 64)%Z)) /\
  (exists i, to_i64 f = Ok i /\ (i = z <-> (- 2 ^ 63 <= z < 2 ^ 63)%Z)) /\
  (exists x, to_f64 f = Ok x /\ (float_is x z <-> double z)).
Proof.
  intros f z OK I. destruct (C13_wraps f z OK I) as ((n & En & Un & k & Sn) & (i & Ei & Ui & j & Si)).
  destruct (C13_to_f64_nearest f z OK I) as (x & r & Ex & Fx & Dr & Near & _). splits.
  - exists n. split; [exact En|]. unfold u64_ok in Un. change (2 ^ 64)%N with 18446744073709551616%N in Un. change (2 ^ 64)%Z with 18446744073709551616%Z in *. lia.
  - exists i. split; [exact Ei|]. unfold i64_ok in Ui. change (2 ^ 64)%Z with 18446744073709551616%Z in *. change (2 ^ 63)%Z with 9223372036854775808%Z in *. lia.
  - exists x. split; [exact Ex|]. split.
    + intros F. rewrite (float_is_unique _ _ _ F Fx). exact Dr.
    + intros D. specialize (Near z D). replace z with r by lia. exact Fx.
Qed.
Print Assumptions C102_exact_refuted.
Example C102_exact_case : exists n, to_u64 (I64 (-5)) = Ok n /\ Z.of_N n <> (-5)%Z.
Proof. eexists. split; [vm_compute; reflexivity|discriminate]. Qed.

(** * The IP fields of a log *)
(** Whatever value replaces an address, it is reported among the IP fields, after every history. *)
Theorem C104_stays_refuted : forall P h h2 m r o n a v, exists l,
  run P (h ++ OInsert n (IP a) :: h2 ++ [OInsert n v])%list (log_new m r o) = Val l /\ In (n, v) (ip_fields l).
Proof.
  intros P h h2 m r o n a v. destruct (C14_last_write_wins P (h ++ OInsert n (IP a) :: h2 ++ [OInsert n v])%list m r o) as (l & L & W & _ & _).
  exists l. split; [exact L|]. apply (C16_exact P _ m r o l n v L). split.
  - exists a. apply in_or_app. right. left. reflexivity.
  - apply W. replace (h ++ OInsert n (IP a) :: h2 ++ [OInsert n v])%list with ((h ++ OInsert n (IP a) :: h2) ++ [OInsert n v])%list.
    + apply w_insert.
    + rewrite <- app_assoc. reflexivity.
Qed.
Print Assumptions C104_stays_refuted.
Example C104_stays_case : forall P, exists l,
  run P [OInsert "a" (IP (V4 7)); OTag "t"; OInsert "a" (U64 3)] (log_new "" 0 "") = Val l /\ ip_fields l = [("a", U64 3)].
Proof. intros P. eexists. split; reflexivity. Qed.

(** * Tags *)
Lemma lower_twice s : to_lower (to_lower s) = to_lower s.
Proof.
  unfold to_lower. induction s as [|a s IH]; [reflexivity|]. cbn [smap]. rewrite IH. f_equal.
  destruct a as [[] [] [] [] [] [] [] []]; reflexivity.
Qed.
(** A tag with a capital letter is never found, whatever was added. *)
Theorem C105_capitals_refuted : forall P h m r o l t, run P h (log_new m r o) = Val l -> to_lower t <> t -> has_tag t l = false.
Proof.
  intros P h m r o l t L N. destruct (has_tag t l) eqn:H; [|reflexivity]. exfalso. apply N.
  apply (C17_tags P h m r o l t L) in H. destruct H as (t' & _ & <-). apply lower_twice.
Qed.
Print Assumptions C105_capitals_refuted.
Example C105_capitals_case : to_lower "Malware" <> "Malware" /\ exists l, run (Build_printers (fun _ => "") (fun _ => "")) [OTag "Malware"] (log_new "" 0 "") = Val l /\
  has_tag "Malware" l = false /\ has_tag "malware" l = true.
Proof. split; [discriminate|]. eexists. split; [reflexivity|]. split; reflexivity. Qed.

(** * The buckets of a histogram *)
Lemma ge_not_gt v b : v <> S754_nan -> b <> S754_nan -> f64_ge b v = negb (f64_gt v b).
Proof.
  unfold f64_ge, f64_gt, SFleb, SFltb. intros NV NB.
  destruct v as [sv|[]| |[] m e], b as [sb|[]| |[] m' e']; try congruence; cbn [SFcompare]; try (destruct sb); try (destruct sv); try reflexivity.
  all: change (Pos.compare_cont Eq m' m) with (Pos.compare m' m); change (Pos.compare_cont Eq m m') with (Pos.compare m m');
    rewrite (Z.compare_antisym e e'), (Pos.compare_antisym m m'); destruct (Z.compare e e'), (Pos.compare m m'); reflexivity.
Qed.
Lemma count_of_bound {A} (Q : A -> Prop) l c : count_of Q l c -> (c <= N.of_nat (length l))%N.
Proof. induction 1; cbn [length]; lia. Qed.
(** After any concurrent observations, for every bound from the first one on, [get_count] answers the count of the first bucket. *)
Theorem C109_first_bucket_refuted : forall b0 le (ths : list (list f64)) tr b c,
  (forall x, In x (b0 :: le) -> is_f64 x /\ x <> S754_nan) -> (forall v, In v (concat ths) -> is_f64 v /\ v <> S754_nan) ->
  interleaves (map (flat_map (observe_acts (b0 :: le))) ths) tr -> (N.of_nat (length (concat ths)) < 2 ^ 64)%N ->
  is_f64 b -> b <> S754_nan -> f64_le b0 b -> count_of (fun v => f64_le v b0) (concat ths) c ->
  get_count (hact_run (hist_new (b0 :: le)) tr) b = Some c.
Proof.
  intros b0 le ths tr b c Hb Hv I L Fb Nb B C.
  destruct (C24_histogram_exact (b0 :: le) ths tr Hb Hv I) as (_ & _ & _ & H). destruct (H 0%nat b0 c eq_refl C) as (n & Hn & U).
  destruct (Hb b0 (or_introl eq_refl)) as [F0 N0]. destruct U as [_ U]. rewrite N.mod_small in U by (eapply N.le_lt_trans; [exact (count_of_bound _ _ _ C)|exact L]). subst n.
  apply C25_first_bucket. exists 0%nat, b0. split; [exact Hn|]. split; [|intros; lia].
  rewrite (ge_not_gt b0 b N0 Nb). apply Bool.negb_true_iff. apply not_gt_le; assumption.
Qed.
Print Assumptions C109_first_bucket_refuted.
(** The counts of the usual bounds after one observation of 5: the bucket of 10 holds one, [get_count] of 10 is 0. *)
Example C109_first_bucket_case : let h := hact_run (hist_new basic_le) (observe_acts basic_le (int_as_f64 5)) in
  (exists b, nth_error (h_buckets h) 9 = Some (b, 1%N) /\ get_count h b = Some 0%N) /\ get_count h (int_as_f64 5) = Some 0%N.
Proof. split; [eexists; split|]; vm_compute; reflexivity. Qed.

(** * Field equality *)
(** It is not symmetric exactly between a value that is neither a name nor a text and every text that is not how it is displayed. *)
Theorem C99_asymmetric_refuted : forall P a b, field_ok a -> field_ok b ->
  (field_eqb P a b = true /\ field_eqb P b a = false <-> group_of a = GOther /\ group_of b = GText /\ display P a <> display P b).
Proof.
  intros P a b Ka Kb. pose proof (C10_exact P a b Ka Kb) as A. pose proof (C10_exact P b a Kb Ka) as B.
  rewrite <- not_true_iff_false, A, B. destruct (group_of a), (group_of b); intuition congruence.
Qed.
Print Assumptions C99_asymmetric_refuted.
(** It is not transitive exactly when the chain goes over a text and a value that is neither a name nor a text. *)
Theorem C99_intransitive_refuted : forall P a b c, field_ok a -> field_ok b -> field_ok c ->
  (field_eqb P a b = true /\ field_eqb P b c = true /\ field_eqb P a c = false <->
   let same x y := display P x = display P y in
   match group_of a, group_of b, group_of c with
   | GOther, GText, GName => same b c
   | GName, GText, GOther => same a b /\ same b c
   | GOther, GText, GOther => same b c /\ ~ same a c
   | GText, GOther, GText => same a b /\ ~ same a c
   | _, _, _ => False
   end).
Proof.
  intros P a b c Ka Kb Kc. cbv zeta. rewrite <- not_true_iff_false, (C10_exact P a b Ka Kb), (C10_exact P b c Kb Kc), (C10_exact P a c Ka Kc).
  destruct (group_of a), (group_of b), (group_of c); intuition congruence.
Qed.
Print Assumptions C99_intransitive_refuted.
Example C99_chains_case : forall P,
  field_eqb P (U64 5) (Text "x") = true /\ field_eqb P (Text "x") (User "x") = true /\ field_eqb P (U64 5) (User "x") = false /\
  field_eqb P (Text "7") (U64 7) = true /\ field_eqb P (U64 7) (Text "y") = true /\ field_eqb P (Text "7") (Text "y") = false.
Proof. intros P. repeat split. Qed.
