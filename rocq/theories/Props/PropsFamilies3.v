(** More refuted properties, for whole families of inputs: C128, C129. *)
From Coq Require Import String Ascii NArith ZArith List Bool Floats.SpecFloat Lia.
From Verif Require Import Base.Arith Base.Str Base.Sched Base.Outcome Model.Field Model.Metrics Spec.FieldSpec Spec.MetricsSpec
  Proofs.MetricsP Proofs.HistP Proofs.PromP Proofs.FloatP Props.PropsMetrics.
Import ListNotations.
Local Open Scope string_scope.

Lemma all_counted {A} (Q : A -> Prop) l : Forall Q l -> count_of Q l (N.of_nat (length l)).
Proof.
  induction 1 as [|x l H F IH]; [constructor|]. replace (N.of_nat (length (x :: l))) with (N.of_nat (length l) + 1)%N by (simpl length; lia).
  constructor; assumption.
Qed.
(** C129: whatever the bounds, a bucket and a value it counts, and however often it was observed before: if it is observed any number
    of times between the reading of the count and that of the buckets, the bucket shows as many more than the count. *)
Theorem C129_any_excess_refuted : forall le k b x m n,
  (forall b, In b le -> is_f64 b /\ b <> S754_nan) -> is_f64 x -> x <> S754_nan ->
  nth_error le k = Some b -> f64_le x b -> (N.of_nat (m + n) < 2 ^ 64)%N ->
  exists tr1 tr2, interleaves (map (flat_map (observe_acts le)) [repeat x m; repeat x n]) (tr1 ++ tr2) /\
    get_sample_count (hact_run (hist_new le) tr1) = N.of_nat m /\
    nth_error (h_buckets (hact_run (hist_new le) (tr1 ++ tr2))) k = Some (b, N.of_nat (m + n)).
Proof.
  intros le k b x m n B FX NX K L LT. exists (flat_map (observe_acts le) (repeat x m)), (flat_map (observe_acts le) (repeat x n)).
  assert (I : interleaves (map (flat_map (observe_acts le)) [repeat x m; repeat x n]) (flat_map (observe_acts le) (repeat x m) ++ flat_map (observe_acts le) (repeat x n))).
  { pose proof (interleaves_seq (map (flat_map (observe_acts le)) [repeat x m; repeat x n])) as I. simpl in I. rewrite app_nil_r in I. exact I. }
  assert (V : forall j v, In v (repeat x j) -> is_f64 v /\ v <> S754_nan) by (intros j v Hv; apply repeat_spec in Hv; subst; auto).
  splits; [exact I| |].
  - pose proof (interleaves_seq (map (flat_map (observe_acts le)) [repeat x m])) as I1. simpl in I1. rewrite app_nil_r in I1.
    destruct (C24_histogram_exact le [repeat x m] _ B ltac:(intros v Hv; simpl in Hv; rewrite app_nil_r in Hv; eapply V; eauto) I1) as [(_ & E) _].
    rewrite E. cbn [concat]. rewrite app_nil_r, repeat_length, N.mod_small; [reflexivity|]. eapply N.le_lt_trans; [|exact LT]. lia.
  - destruct (C24_histogram_exact le [repeat x m; repeat x n] _ B ltac:(intros v Hv; simpl in Hv; rewrite app_nil_r in Hv; apply in_app_or in Hv; destruct Hv; eapply V; eauto) I) as (_ & _ & _ & H).
    destruct (H k b (N.of_nat (m + n)) K) as (c & E & (_ & M)).
    + cbn [concat]. rewrite app_nil_r, <- repeat_app. rewrite <- (repeat_length x (m + n)) at 2. apply all_counted. apply Forall_forall.
      intros v Hv. apply repeat_spec in Hv. subst. exact L.
    + rewrite E, M, N.mod_small by exact LT. reflexivity.
Qed.

(** C128: a description may say anything. Whatever the metric, a further line of its description is read as a sample, of any metric and with
    any digits for its value. *)
Lemma label_chars s : label_name s -> s <> "" /\ only (fun c => letter c || digit c) s.
Proof.
  destruct s as [|a s]; [intros []|]. intros [A B]. split; [discriminate|]. split; [rewrite A; reflexivity|exact B].
Qed.
Lemma value_parsed v nm ls acc : only digit v -> prom_parse false (PValue nm ls acc) v = if String.eqb (acc ++ v) "" then None else Some (mkSample nm ls (acc ++ v)).
Proof.
  revert acc. induction v as [|a v IH]; intros acc H; [cbn [prom_parse]; rewrite str_app_nil_r; reflexivity|]. destruct H as [D H]. cbn [prom_parse].
  assert (E : (Ascii.eqb a " " || Ascii.eqb a "010") = false).
  { destruct (Ascii.eqb_spec a " ") as [->|]; [discriminate D|]. destruct (Ascii.eqb_spec a "010") as [->|]; [discriminate D|]. reflexivity. }
  rewrite E, IH by exact H. rewrite snoc_app. reflexivity.
Qed.
Lemma forged_line n v : label_name n -> v <> "" -> only digit v -> parse_line false (n ++ " " ++ v) = Some (mkSample n [] v).
Proof.
  intros N V D. unfold parse_line. destruct n as [|a n]; [destruct N|]. destruct N as [A B]. cbn [append prom_parse]. rewrite A. cbn [orb].
  rewrite parse_name; [|exact B|discriminate]. cbn [append prom_parse]. 
  change (letter " " || Ascii.eqb " " ":" || digit " " && negb (String.eqb (snoc "" a ++ n) "")) with false. cbn iota.
  change (snoc "" a ++ n) with (String a n). cbn [String.eqb]. change (Ascii.eqb " " "{") with false. change (Ascii.eqb " " " ") with true. cbn iota.
  rewrite value_parsed by exact D. cbn [append]. destruct (String.eqb_spec v ""); [contradiction|reflexivity].
Qed.
Theorem C128_forged_refuted : forall name a n v m help,
  label_name name -> valid_description a = true -> one_line a -> label_name n -> v <> "" -> only digit v ->
  valid_description (a ++ nl ++ n ++ " " ++ v) = true /\
  parse_exposition (enc_counter_vec name (a ++ nl ++ n ++ " " ++ v) true m) =
    option_map (cons (mkSample n [] v)) (parse_exposition (enc_counter_vec name a help m)).
Proof.
  intros name a n v m help NA VA OA NN V D. split.
  - apply valid_description_iff in VA. destruct VA as [_ VA]. apply valid_description_iff. split; [destruct a; discriminate|].
    rewrite !only_app. split; [exact VA|]. split; [split; [reflexivity|exact I]|]. split; [|split; [split; [reflexivity|exact I]|]].
    + eapply only_impl; [|exact (proj2 (label_chars n NN))]. intros c H. unfold cls_w. unfold letter, digit in H. change in_range with char_in.
      destruct (char_in 97 122 c), (char_in 65 90 c), (char_in 48 57 c), (Ascii.eqb c "_"); simpl in *; congruence.
    + eapply only_impl; [|exact D]. intros c H. unfold cls_w. change in_range with char_in. unfold digit in H. rewrite H, !orb_true_r. reflexivity.
  - unfold parse_exposition, enc_counter_vec. rewrite (expo_header false name a "counter" help _ NA OA ltac:(cbv; tauto)).
    set (body := concat_str _). unfold enc_header. rewrite !str_app_assoc.
    replace ("# HELP " ++ name ++ " " ++ a ++ nl ++ n ++ " " ++ v ++ nl ++ "# TYPE " ++ name ++ " " ++ "counter" ++ nl ++ body)
      with (("# HELP " ++ name ++ " " ++ a) ++ nl ++ (n ++ " " ++ v) ++ nl ++ enc_header name a "counter" false ++ body)
      by (unfold enc_header; rewrite !str_app_assoc; reflexivity).
    assert (H1 : forall r, exposition false (("# HELP " ++ name ++ " " ++ a) ++ nl ++ r) = exposition false r).
    { intro r. unfold exposition. rewrite lines_one; [destruct (lines_from "" r); reflexivity|]. pose proof (label_name_one name NA).
      unfold one_line in *. rewrite !only_app. splits; auto; simpl; tauto. }
    rewrite H1, expo_cons; [|exact NN|].
    + rewrite forged_line by assumption. rewrite (expo_header false name a "counter" false _ NA OA ltac:(cbv; tauto)).
      destruct (exposition false body); reflexivity.
    + split; [reflexivity|]. eapply only_impl; [|exact D]. intros c H. destruct (Ascii.eqb_spec c "010") as [->|]; [discriminate H|reflexivity].
Qed.
Example C128_forged_case : forall m, parse_exposition (enc_counter_vec "logs_parsed" ("Logs parsed" ++ nl ++ "blocked_total 0") true m)
  = option_map (cons (mkSample "blocked_total" [] "0")) (parse_exposition (enc_counter_vec "logs_parsed" "Logs parsed" true m)).
Proof. intro m. apply (C128_forged_refuted "logs_parsed" "Logs parsed" "blocked_total" "0" m true); try (vm_compute; repeat split; congruence). Qed.
Example C129_any_excess_case : let le := [int_as_f64 1] in (forall b, In b le -> is_f64 b /\ b <> S754_nan) /\ nth_error le 0 = Some (int_as_f64 1)
  /\ f64_le (int_as_f64 1) (int_as_f64 1).
Proof.
  cbv zeta. split; [intros b [<-|[]]; split; [vm_compute; auto|discriminate]|]. split; [reflexivity|]. vm_compute. intuition congruence.
Qed.
Print Assumptions C128_forged_refuted.
Print Assumptions C129_any_excess_refuted.
