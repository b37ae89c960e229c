(** Properties C24, C29 and C170-C172: what a scraper sees of metrics over time, and of several series (src/components/metrics). *)
From Coq Require Import String Ascii NArith ZArith QArith Qabs List Bool Floats.SpecFloat Permutation Lia.
From Verif Require Import Base.Arith Base.Str Base.Sched Base.Outcome Model.Field Model.Metrics Spec.FieldSpec Spec.MetricsSpec Spec.DecimalSpec
  Proofs.MetricsP Proofs.HistP.
Import ListNotations.
Local Open Scope string_scope.

(** * C170: what is read later is never less. [tr1] has happened at the first reading, [tr1 ++ tr2] at the second. *)

Lemma zsum_nonneg l : (forall z, In z l -> 0 <= z)%Z -> (0 <= zsum l)%Z.
Proof.
  induction l as [|a l IH]; intros H; simpl; [lia|]. pose proof (H a (or_introl eq_refl)).
  specialize (IH (fun z I => H z (or_intror I))). lia.
Qed.
Lemma is_i64_small v s : is_i64_of v s -> (- 2 ^ 63 <= s < 2 ^ 63)%Z -> v = s.
Proof. intros A B. apply (is_i64_unique v s s A). split; [exact B|]. rewrite Z.sub_diag. reflexivity. Qed.
Theorem C170_counter : forall n (ths : list (list ccall)) tr1 tr2 tr3 i, (i < n)%nat ->
  (forall c, In c (concat ths) -> ~ resets i c /\ (0 <= asked i c)%Z) -> (zsum (map (asked i) (concat ths)) < 2 ^ 63)%Z ->
  interleaves (map (flat_map (ccall_acts n)) ths) (tr1 ++ tr2 ++ tr3)%list ->
  (0 <= counter_get (act_run (zeros n) tr1) i <= counter_get (act_run (zeros n) (tr1 ++ tr2)) i)%Z
  /\ (counter_get (act_run (zeros n) (tr1 ++ tr2)) i <= zsum (map (asked i) (concat ths)))%Z.
Proof.
  intros n ths tr1 tr2 tr3 i L C S IL. pose proof (interleaves_perm _ _ IL) as P. rewrite concat_flat in P.
  assert (R : forall a, In a (tr1 ++ tr2 ++ tr3)%list -> stores i a = false /\ (0 <= add_of i a)%Z).
  { intros a I. apply (Permutation_in _ P) in I. apply in_flat_map in I. destruct I as (c & C1 & C2). destruct (C c C1) as [N1 N2].
    split; [exact (ccall_stores n i c a N1 C2)|]. destruct c as [j|j v|j|]; cbn [ccall_acts] in C2.
    - destruct C2 as [<-|[]]. simpl. destruct (Nat.eqb i j); lia.
    - destruct C2 as [<-|[]]. simpl in *. exact N2.
    - destruct C2 as [<-|[]]. simpl. lia.
    - exfalso. apply N1. right. reflexivity. }
  assert (E : zsum (map (asked i) (concat ths)) = zsum (map (add_of i) (tr1 ++ tr2 ++ tr3))).
  { rewrite (zsum_perm _ _ (Permutation_map (add_of i) P)). symmetry. apply flat_sum. intros c I. apply C. exact I. }
  rewrite E in *. rewrite !map_app, !zsum_app in *.
  assert (P1 : (0 <= zsum (map (add_of i) tr1))%Z).
  { apply zsum_nonneg. intros z I. apply in_map_iff in I. destruct I as (a & <- & I). apply R, in_app_iff. auto. }
  assert (P2 : (0 <= zsum (map (add_of i) tr2))%Z).
  { apply zsum_nonneg. intros z I. apply in_map_iff in I. destruct I as (a & <- & I). apply R. rewrite !in_app_iff. auto. }
  assert (P3 : (0 <= zsum (map (add_of i) tr3))%Z).
  { apply zsum_nonneg. intros z I. apply in_map_iff in I. destruct I as (a & <- & I). apply R. rewrite !in_app_iff. auto. }
  assert (G : forall tr, (forall a, In a tr -> In a (tr1 ++ tr2 ++ tr3)%list) -> (- 2 ^ 63 <= zsum (map (add_of i) tr) < 2 ^ 63)%Z ->
    counter_get (act_run (zeros n) tr) i = zsum (map (add_of i) tr)).
  { intros tr SUB B. apply is_i64_small; [|exact B]. rewrite <- (Z.add_0_l (zsum (map (add_of i) tr))), <- cell_sum_adds by (intros a I; apply R, SUB, I).
    apply act_run_cell; [unfold zeros; rewrite repeat_length; exact L|apply zeros_is|].
    intros j v I. apply SUB, (Permutation_in _ P), in_flat_map in I. destruct I as (c & _ & I). apply ccall_store_zero in I. subst v. lia. }
  rewrite (G tr1), (G (tr1 ++ tr2)%list); rewrite ?map_app, ?zsum_app; try lia; intros a I; rewrite !in_app_iff in *; tauto.
Qed.
Print Assumptions C170_counter.
Lemma filter_length_le {A} (f : A -> bool) l : (length (filter f l) <= length l)%nat.
Proof. induction l as [|a l IH]; simpl; [lia|]. destruct (f a); simpl; lia. Qed.
(** The same of the count and of each bucket of a histogram. *)
Theorem C170_histogram : forall le (ths : list (list f64)) tr1 tr2 tr3, (N.of_nat (length (concat ths)) < 2 ^ 64)%N ->
  interleaves (map (flat_map (observe_acts le)) ths) (tr1 ++ tr2 ++ tr3)%list ->
  let h1 := hact_run (hist_new le) tr1 in let h2 := hact_run (hist_new le) (tr1 ++ tr2) in
  (get_sample_count h1 <= get_sample_count h2 <= N.of_nat (length (concat ths)))%N
  /\ forall k b, nth_error le k = Some b -> exists n1 n2, nth_error (h_buckets h1) k = Some (b, n1) /\ nth_error (h_buckets h2) k = Some (b, n2) /\ (n1 <= n2)%N.
Proof.
  intros le ths tr1 tr2 tr3 S IL h1 h2. pose proof (interleaves_perm _ _ IL) as P. rewrite concat_flat in P.
  assert (T : cnt is_count (tr1 ++ tr2 ++ tr3) = N.of_nat (length (concat ths))) by (rewrite (cnt_perm _ _ _ P); apply observe_cnt).
  rewrite !cnt_app in T. split.
  - destruct (hact_run_count (hist_new le) tr1 0) as [_ A]; [split; reflexivity|].
    destruct (hact_run_count (hist_new le) (tr1 ++ tr2) 0) as [_ B]; [split; reflexivity|].
    unfold h1, h2, get_sample_count. rewrite A, B, cnt_app, !N.add_0_l, !N.mod_small by lia. lia.
  - intros k b K. assert (Z : nth_error (h_buckets (hist_new le)) k = Some (b, 0%N)) by (simpl; rewrite nth_error_map, K; reflexivity).
    destruct (hact_run_bucket (hist_new le) tr1 k b 0 0 Z) as (n1 & A & _ & A2); [split; reflexivity|].
    destruct (hact_run_bucket (hist_new le) (tr1 ++ tr2) k b 0 0 Z) as (n2 & B & _ & B2); [split; reflexivity|].
    exists n1, n2. splits; [exact A|exact B|]. rewrite A2, B2, cnt_app, !N.add_0_l.
    assert (U : (cnt (is_bucket k) (tr1 ++ tr2 ++ tr3) < 2 ^ 64)%N).
    { rewrite (cnt_perm _ _ _ P), (observe_bucket _ _ _ _ K).
      pose proof (filter_length_le (fun v => negb (f64_gt v b)) (concat ths)). lia. }
    rewrite !cnt_app in U. rewrite !N.mod_small by lia. lia.
Qed.
Print Assumptions C170_histogram.
Example C170_case : exists tr1 tr2, interleaves (map (flat_map (ccall_acts 1)) [[CInc 0]; [CIncBy 0 5]]) (tr1 ++ tr2 ++ [])%list
  /\ counter_get (act_run (zeros 1) tr1) 0 = 5%Z /\ counter_get (act_run (zeros 1) (tr1 ++ tr2)) 0 = 6%Z.
Proof.
  exists [AAdd 0 5]%Z, [AAdd 0 1]%Z. split; [|split; reflexivity].
  apply (il_step [[AAdd 0 1]%Z] (AAdd 0 5) [] []). apply (il_step [] (AAdd 0 1) [] [[]]). constructor. repeat constructor.
Qed.

(** * C171: a counter never goes backwards. It does: [inc_by] takes negative numbers, and the cell wraps around. *)
Theorem C171_negative_refuted : ~ (forall n (ths : list (list ccall)) tr1 tr2 i, (i < n)%nat ->
  (forall c, In c (concat ths) -> ~ resets i c) -> (Z.abs (zsum (map (asked i) (concat ths))) < 2 ^ 63)%Z ->
  interleaves (map (flat_map (ccall_acts n)) ths) (tr1 ++ tr2)%list ->
  (counter_get (act_run (zeros n) tr1) i <= counter_get (act_run (zeros n) (tr1 ++ tr2)) i)%Z).
Proof.
  intros H. specialize (H 1%nat [[CIncBy 0 (-1)]] [] [AAdd 0 (-1)%Z] 0%nat ltac:(lia)).
  cut (0 <= -1)%Z; [lia|]. apply H.
  - intros c [<-|[]] [E|E]; discriminate.
  - vm_compute. reflexivity.
  - apply (il_step [] (AAdd 0 (-1)%Z) [] []). constructor. repeat constructor.
Qed.
Print Assumptions C171_negative_refuted.
Theorem C171_wrap_refuted : ~ (forall n (ths : list (list ccall)) tr1 tr2 i, (i < n)%nat ->
  (forall c, In c (concat ths) -> ~ resets i c /\ (0 <= asked i c < 2 ^ 63)%Z) ->
  interleaves (map (flat_map (ccall_acts n)) ths) (tr1 ++ tr2)%list ->
  (counter_get (act_run (zeros n) tr1) i <= counter_get (act_run (zeros n) (tr1 ++ tr2)) i)%Z).
Proof.
  intros H. specialize (H 1%nat [[CIncBy 0 9223372036854775807; CInc 0]] [AAdd 0 9223372036854775807%Z] [AAdd 0 1%Z] 0%nat ltac:(lia)).
  cut (9223372036854775807 <= -9223372036854775808)%Z; [lia|]. apply H.
  - intros c [<-|[<-|[]]]; (split; [intros [E|E]; discriminate|]); cbn [asked Nat.eqb]; lia.
  - apply (il_step [] (AAdd 0 9223372036854775807%Z) [AAdd 0 1%Z] []). apply (il_step [] (AAdd 0 1%Z) [] []). constructor. repeat constructor.
Qed.
Print Assumptions C171_wrap_refuted.

(** * C172: the series of a histogram vec. A thread is a list of observations, each through the handle of a series. *)

Fixpoint of_series {A} (i : nat) (tr : list (nat * A)) : list A :=
  match tr with [] => [] | (j, a) :: r => if Nat.eqb i j then a :: of_series i r else of_series i r end.
Lemma of_series_app {A} i (a b : list (nat * A)) : of_series i (a ++ b) = (of_series i a ++ of_series i b)%list.
Proof. induction a as [|[j x] a IH]; [reflexivity|]. simpl. destruct (Nat.eqb i j); simpl; congruence. Qed.
Lemma of_series_pair {A} i j (l : list A) : of_series i (map (pair j) l) = if Nat.eqb i j then l else [].
Proof. induction l as [|x l IH]; simpl; [destruct (Nat.eqb i j); reflexivity|]. rewrite IH. destruct (Nat.eqb i j); reflexivity. Qed.
Lemma hvec_run_series m tr i ls h : nth_error m i = Some (ls, h) -> nth_error (hvec_run m tr) i = Some (ls, hact_run h (of_series i tr)).
Proof.
  revert m h. induction tr as [|[j a] tr IH]; intros m h H; [exact H|].
  unfold hvec_run. cbn [fold_left fst snd]. fold (hvec_run (upd j (fun p => (fst p, hact_step (snd p) a)) m) tr). cbn [of_series].
  destruct (Nat.eqb i j) eqn:E.
  - cbn [hact_run fold_left]. apply IH. rewrite upd_nth_error, E, H. reflexivity.
  - apply IH. rewrite upd_nth_error, E. exact H.
Qed.
Lemma interleaves_series {A} i (ths : list (list (nat * A))) tr : interleaves ths tr -> interleaves (map (of_series i) ths) (of_series i tr).
Proof.
  induction 1 as [ths F|pre [j a] t post tr _ IH].
  - constructor. induction F as [|t ths -> _ IH]; constructor; auto.
  - rewrite map_app in *. cbn [map of_series] in *. destruct (Nat.eqb i j); [constructor; exact IH|exact IH].
Qed.
(** Whatever else happens, a series sees exactly the observations made through its handle: its histogram is that of a single histogram on which
    just these were made, in some schedule (and C24, C65 and C170 say what that one holds). *)
Theorem C172_series : forall lss le (ths : list (list (nat * f64))) tr i ls, nth_error lss i = Some ls ->
  interleaves (map (flat_map (hcall_acts le)) ths) tr ->
  exists tr_i, interleaves (map (flat_map (observe_acts le)) (map (of_series i) ths)) tr_i
    /\ nth_error (hvec_run (hist_vec_with_le lss le) tr) i = Some (ls, hact_run (hist_new le) tr_i).
Proof.
  intros lss le ths tr i ls H IL. exists (of_series i tr). split.
  - apply (interleaves_series i) in IL. rewrite map_map in *. erewrite map_ext; [exact IL|]. intros th. cbv beta.
    induction th as [|[j v] th IH]; [reflexivity|]. cbn [of_series flat_map]. rewrite of_series_app. unfold hcall_acts at 1. cbn [fst snd].
    rewrite of_series_pair. destruct (Nat.eqb i j); cbn [flat_map app]; rewrite <- IH; reflexivity.
  - apply hvec_run_series. unfold hist_vec_with_le. rewrite nth_error_map, H. reflexivity.
Qed.
Print Assumptions C172_series.
(** No series appears or disappears, and labels keep selecting the same one. *)
Theorem C172_labels : forall lss le tr, map fst (hvec_run (hist_vec_with_le lss le) tr) = lss.
Proof.
  intros lss le tr. assert (G : forall m, map fst (hvec_run m tr) = map fst m).
  { induction tr as [|[j a] tr IH]; intros m; [reflexivity|]. unfold hvec_run. cbn [fold_left fst snd].
    fold (hvec_run (upd j (fun p => (fst p, hact_step (snd p) a)) m) tr). rewrite IH. clear IH. revert j. induction m as [|x m IH]; intros [|j]; simpl; congruence. }
  rewrite G. unfold hist_vec_with_le. rewrite map_map. apply map_id.
Qed.
Print Assumptions C172_labels.
Example C172_case : exists tr, interleaves (map (flat_map (hcall_acts [])) [[(0, f64_one)]; [(1, f64_one)]]%nat) tr
  /\ nth_error (hvec_run (hist_vec_with_le [[("a", "x")]; []] []) tr) 0 = Some ([("a", "x")], mkH 100000 1 []).
Proof. eexists. split; [apply interleaves_seq|]. vm_compute. reflexivity. Qed.

(** * C24: the default buckets are the floats of these decimals (relative error at most 2^-53), in increasing order. *)
Theorem C24_default_buckets : forall lss i ls, nth_error lss i = Some ls ->
  exists h, nth_error (hist_vec_new lss) i = Some (ls, h) /\ get_sample_count h = 0%N /\ get_sample_sum h = S754_zero false
    /\ Forall2 (fun b d => snd b = 0%N /\ is_f64 (fst b) /\ exists v, value (fst b) v /\ Qabs (v - d) * 2 ^ 53 <= d)%Q (h_buckets h)
         [1 # 1000; 5 # 1000; 1 # 100; 5 # 100; 1 # 10; 5 # 10; 1; 2; 5; 10]%Q.
Proof.
  intros lss i ls H. exists (hist_new basic_le). splits.
  - unfold hist_vec_new, hist_vec_with_le. rewrite nth_error_map, H. reflexivity.
  - reflexivity.
  - vm_compute. reflexivity.
  - unfold hist_new, basic_le. cbn [h_buckets map]. 
    repeat (constructor; [cbn [fst snd]; splits; [reflexivity|vm_compute; reflexivity|]; 
      match goal with |- exists v, value (S754_finite false ?m ?e) v /\ _ => exists (inject_Z (Zpos m) * 2 ^ e)%Q end; split; [vm_compute; reflexivity|vm_compute; discriminate]|]).
    constructor.
Qed.
Print Assumptions C24_default_buckets.

(** * C29: the predefined names are valid, and distinct. *)
Theorem C29_predefined : NoDup predefined_metrics /\ (forall name, In name predefined_metrics -> valid_name name = true)
  /\ forall name, In name predefined_metrics <->
       name = "connected_agents" \/ name = "processing_logs_input" \/ name = "processing_logs_parser" \/ name = "logs_parsing_time"
       \/ name = "processing_logs_enchancer" \/ name = "processing_logs_indexer" \/ name = "logs_indexing_time"
       \/ name = "processed_bytes_input" \/ name = "processed_bytes_indexer".
Proof.
  splits; [| |intros name; unfold predefined_metrics; cbn [In]; intuition congruence].
  - assert (D : nodup string_dec predefined_metrics = predefined_metrics) by (vm_compute; reflexivity). rewrite <- D. apply NoDup_nodup.
  - assert (F : forallb valid_name predefined_metrics = true) by (vm_compute; reflexivity). rewrite forallb_forall in F. exact F.
Qed.
Print Assumptions C29_predefined.
