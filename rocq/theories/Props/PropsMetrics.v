(** Properties C23-C29, C63-C65: metrics (src/components/metrics). *)
From Coq Require Import String Ascii NArith ZArith List Bool Floats.SpecFloat Lia.
From Verif Require Import Base.Arith Base.Str Base.Sched Base.Outcome Model.Field Model.Metrics Spec.FieldSpec Spec.MetricsSpec
  Proofs.MetricsP Proofs.HistP Proofs.ComboP Proofs.Combo2P Proofs.PromP Proofs.FloatP.
Import ListNotations.
Local Open Scope string_scope.

(** * C23: [ths] are threads calling a counter vec of [n] series; [tr] is any schedule of their atomic accesses. *)
Theorem C23_no_lost_increments : forall n (ths : list (list ccall)) tr i,
  (i < n)%nat -> (forall th c, In th ths -> In c th -> ~ resets i c) ->
  interleaves (map (flat_map (ccall_acts n)) ths) tr ->
  is_i64_of (counter_get (act_run (zeros n) tr) i) (zsum (map (asked i) (concat ths))).
Proof. exact counter_no_lost. Qed.
Print Assumptions C23_no_lost_increments.
(** After a reset of series [i], the counter holds what was added since. *)
Theorem C23_reset : forall n before after i,
  (i < n)%nat -> (forall a, In a after -> stores i a = false) ->
  (forall a j v, In a before \/ In a after -> a = AStore j v -> v = 0%Z) ->
  is_i64_of (counter_get (act_run (zeros n) (before ++ AStore i 0 :: after)) i) (zsum (map (add_of i) after)).
Proof. exact counter_after_reset. Qed.
Print Assumptions C23_reset.
(** A new counter has the series it was asked for, each at zero: the [zeros] above are its state. *)
Theorem C23_new : forall lss m, counter_vec_new lss = Val m -> mv_labels m = lss /\ mv_cells m = zeros (length lss).
Proof.
  intros lss m H. unfold counter_vec_new in H. destruct (counter_vec_labels lss) as [x| |] eqn:E; try discriminate.
  injection H as <-. apply counter_vec_labels_id in E. subst x. split; [reflexivity|]. cbn [mv_cells]. induction lss as [|x l IH]; [reflexivity|cbn in *; f_equal; exact IH].
Qed.
Print Assumptions C23_new.
Theorem C23_reset_reads_zero : forall n tr i c, (i < n)%nat -> c = CReset i \/ c = CResetAll ->
  counter_get (act_run (act_run (zeros n) tr) (ccall_acts n c)) i = 0%Z.
Proof.
  intros n tr i c L H. assert (LM : length (act_run (zeros n) tr) = n) by (rewrite act_len; apply repeat_length).
  set (m := act_run (zeros n) tr) in *. clearbody m. unfold counter_get. destruct H as [->| ->]; simpl.
  - rewrite upd_nth by lia. rewrite Nat.eqb_refl. reflexivity.
  - assert (K : forall l m, length m = n -> In i l \/ nth i m 0%Z = 0%Z -> nth i (act_run m (map (fun j => AStore j 0) l)) 0%Z = 0%Z).
    { induction l as [|j l IH]; intros m' Lm [H|H]; simpl; auto; try contradiction.
      - apply IH; [rewrite upd_length; exact Lm|]. destruct H as [->|H]; [right|auto].
        rewrite upd_nth by lia. rewrite Nat.eqb_refl. reflexivity.
      - apply IH; [rewrite upd_length; exact Lm|]. right. rewrite upd_nth by lia. destruct (Nat.eqb i j); auto. }
    apply K; auto. left. apply in_seq. lia.
Qed.
Print Assumptions C23_reset_reads_zero.
Example C23_nonvacuous : exists tr,
  interleaves (map (flat_map (ccall_acts 2)) [[CInc 0; CIncBy 1 7]; [CIncBy 0 5]]) tr /\
  tr <> concat (map (flat_map (ccall_acts 2)) [[CInc 0; CIncBy 1 7]; [CIncBy 0 5]]) /\
  counter_get (act_run (zeros 2) tr) 0 = 6%Z /\ counter_get (act_run (zeros 2) tr) 1 = 7%Z.
Proof.
  exists [AAdd 0 5; AAdd 0 1; AAdd 1 7]%Z. split; [|split; [discriminate|split; reflexivity]].
  apply (il_step [[AAdd 0 1; AAdd 1 7]%Z] (AAdd 0 5) [] []). apply (il_step [] (AAdd 0 1) [AAdd 1 7]%Z [[]]).
  apply (il_step [] (AAdd 1 7) [] [[]]). constructor. repeat constructor.
Qed.

(** * C24: any schedule of concurrent observations of numbers. *)
Theorem C24_histogram_exact : forall (le : list f64) (ths : list (list f64)) tr,
  (forall b, In b le -> is_f64 b /\ b <> S754_nan) ->
  (forall v, In v (concat ths) -> is_f64 v /\ v <> S754_nan) ->
  interleaves (map (flat_map (observe_acts le)) ths) tr ->
  let h := hact_run (hist_new le) tr in
  is_u64_of (get_sample_count h) (N.of_nat (length (concat ths))) /\
  is_i64_of (h_sum h) (zsum (map normalize_f64 (concat ths))) /\
  length (h_buckets h) = length le /\
  forall k b c, nth_error le k = Some b -> count_of (fun v => f64_le v b) (concat ths) c ->
    exists n, nth_error (h_buckets h) k = Some (b, n) /\ is_u64_of n c.
Proof. exact hist_exact. Qed.
Print Assumptions C24_histogram_exact.
(** A wider bound never counts less (fewer than 2^64 samples). *)
Theorem C24_cumulative : forall (le : list f64) (ths : list (list f64)) tr j k bj bk nj nk,
  (forall b, In b le -> is_f64 b /\ b <> S754_nan) ->
  (forall v, In v (concat ths) -> is_f64 v /\ v <> S754_nan) ->
  interleaves (map (flat_map (observe_acts le)) ths) tr ->
  (N.of_nat (length (concat ths)) < 2 ^ 64)%N ->
  let h := hact_run (hist_new le) tr in
  nth_error (h_buckets h) j = Some (bj, nj) -> nth_error (h_buckets h) k = Some (bk, nk) ->
  f64_le bj bk -> (nj <= nk <= get_sample_count h)%N.
Proof.
  intros le ths tr j k bj bk nj nk LE VS IL SM h Hj Hk B.
  destruct (hist_exact le ths tr LE VS IL) as (C & _ & LEN & K). fold h in C, LEN, K.
  assert (BND : forall i b n, nth_error (h_buckets h) i = Some (b, n) -> nth_error le i = Some b).
  { intros i b n Hi. destruct (nth_error le i) as [b'|] eqn:E.
    - destruct (count_of_ex (fun v => f64_le v b') (concat ths)) as [c Hc]; [intros; apply f64_le_dec|].
      destruct (K i b' c E Hc) as (n' & A & _). fold h in A. congruence.
    - apply nth_error_None in E. rewrite <- LEN in E. apply nth_error_None in E. congruence. }
  destruct (count_of_ex (fun v => f64_le v bj) (concat ths)) as [cj Cj]; [intros; apply f64_le_dec|].
  destruct (count_of_ex (fun v => f64_le v bk) (concat ths)) as [ck Ck]; [intros; apply f64_le_dec|].
  destruct (K j bj cj (BND _ _ _ Hj) Cj) as (n1 & A1 & [_ U1]). destruct (K k bk ck (BND _ _ _ Hk) Ck) as (n2 & A2 & [_ U2]).
  assert (E1 : nj = (cj mod 2 ^ 64)%N) by congruence. assert (E2 : nk = (ck mod 2 ^ 64)%N) by congruence.
  assert (M : (cj <= ck)%N) by (apply (count_of_mono _ _ _ _ _ (fun v Hv => f64_le_trans v bj bk Hv B) Cj Ck)).
  assert (T : (ck <= N.of_nat (length (concat ths)))%N) by (clear - Ck; induction Ck; simpl length; lia).
  destruct C as [_ C]. rewrite C, E1, E2. rewrite !N.mod_small by lia. lia.
Qed.
Print Assumptions C24_cumulative.
(** What happens to NaN: it is counted by every bucket. *)
Theorem C24_nan_in_every_bucket : forall le k, (k < length le)%nat -> In (HBucket k) (observe_acts le S754_nan).
Proof.
  intros le k H. right. right. assert (K : forall le i, (i <= k < i + length le)%nat -> In (HBucket k) (bucket_acts i le S754_nan)).
  { clear. induction le as [|b le IH]; intros i Hi; simpl in *; [lia|]. unfold f64_gt, SFltb. destruct b; simpl;
    (destruct (Nat.eq_dec i k) as [->|]; [left; reflexivity|right; apply IH; lia]). }
  apply K. lia.
Qed.
Print Assumptions C24_nan_in_every_bucket.
Example C24_nonvacuous :
  let le := [int_as_f64 1; int_as_f64 5] in let ths := [[int_as_f64 1; int_as_f64 7]; [int_as_f64 3]] in
  (forall b, In b le -> is_f64 b /\ b <> S754_nan) /\ (forall v, In v (concat ths) -> is_f64 v /\ v <> S754_nan) /\
  interleaves (map (flat_map (observe_acts le)) ths) (concat (map (flat_map (observe_acts le)) ths)) /\
  map snd (h_buckets (hact_run (hist_new le) (concat (map (flat_map (observe_acts le)) ths)))) = [1; 2]%N.
Proof.
  cbv zeta. split; [|split; [|split; [apply interleaves_seq|vm_compute; reflexivity]]].
  - intros b [<-|[<-|[]]]; split; try (vm_compute; reflexivity); discriminate.
  - intros b [<-|[<-|[<-|[]]]]; split; try (vm_compute; reflexivity); discriminate.
Qed.

(** * C25 *)
(** [get_count] for one of the bounds should be the number of observations up to it. *)
Theorem C109_get_count_refuted : ~ (forall (le : list f64) (vs : list f64) k b n c,
  (forall x, In x (le ++ vs) -> is_f64 x /\ x <> S754_nan) -> nth_error le k = Some b ->
  get_count (hact_run (hist_new le) (flat_map (observe_acts le) vs)) b = Some n ->
  count_of (fun v => f64_le v b) vs c -> n = c).
Proof.
  intros H. specialize (H [int_as_f64 1; int_as_f64 2] [int_as_f64 2] 1%nat (int_as_f64 2) 0%N 1%N).
  assert (0 = 1)%N; [|discriminate]. apply H.
  - intros x [<-|[<-|[<-|[]]]]; split; try (vm_compute; reflexivity); discriminate.
  - reflexivity.
  - vm_compute. reflexivity.
  - change 1%N with (0 + 1)%N. apply co_yes; [vm_compute; discriminate|constructor].
Qed.
Print Assumptions C109_get_count_refuted.
(** It always reads the first bucket whose bound does not exceed the argument; so it is right for the first bound. *)
Theorem C25_first_bucket : forall h le n, get_count h le = Some n <->
  exists k b, nth_error (h_buckets h) k = Some (b, n) /\ f64_ge le b = true /\
  forall j b' n', (j < k)%nat -> nth_error (h_buckets h) j = Some (b', n') -> f64_ge le b' = false.
Proof.
  intros h le n. unfold get_count. induction (h_buckets h) as [|[b m] r IH]; simpl.
  - split; [discriminate|]. intros (k & b & H & _). destruct k; discriminate.
  - destruct (f64_ge le b) eqn:E.
    + split.
      * intros [= ->]. exists 0%nat, b. split; [reflexivity|split; [exact E|]]. intros; lia.
      * intros (k & b' & H & _ & F). destruct k; [simpl in H; congruence|].
        specialize (F 0%nat b m ltac:(lia) eq_refl). congruence.
    + rewrite IH. split.
      * intros (k & b' & H & G & F). exists (S k), b'. split; [exact H|split; [exact G|]].
        intros [|j] b'' n'' Hj Hn; simpl in Hn; [congruence|]. apply (F j b'' n''); [lia|exact Hn].
      * intros (k & b' & H & G & F). destruct k; [simpl in H; congruence|]. exists k, b'. split; [exact H|split; [exact G|]].
        intros j b'' n'' Hj Hn. apply (F (S j) b'' n''); [lia|exact Hn].
Qed.
Print Assumptions C25_first_bucket.

(** * C26 *)
Theorem C110_product_refuted : ~ (forall ls, (forall row, In row (label_combinations ls) <-> chooses ls row)).
Proof.
  (* the shape of the repository's own test: 3, 3 and 2 values *)
  intros H. specialize (H [("name", ["a"; "b"; "c"]); ("v1", ["d"; "e"; "f"]); ("v2", ["g"; "h"])] [("name", "a"); ("v1", "f"); ("v2", "g")]).
  assert (C : chooses [("name", ["a"; "b"; "c"]); ("v1", ["d"; "e"; "f"]); ("v2", ["g"; "h"])] [("name", "a"); ("v1", "f"); ("v2", "g")]).
  { unfold chooses. constructor; [simpl; auto 6|]. constructor; [simpl; auto 6|]. constructor; [simpl; auto 6|constructor]. }
  apply H in C.
  revert C. vm_compute. intros C. repeat (destruct C as [C|C]; [discriminate|]). exact C.
Qed.
Print Assumptions C110_product_refuted.
(** For every list of labels: as many rows as there are choices, and every row is a choice. *)
Theorem C26_rows_are_choices : forall ls,
  length (label_combinations ls) = fold_right (fun l n => length (snd l) * n)%nat 1%nat ls /\
  Forall (chooses ls) (label_combinations ls).
Proof.
  intros ls. destruct (combos_legal ls) as [A B]. split; [|exact B]. rewrite A. clear. induction ls; simpl; auto.
Qed.
Print Assumptions C26_rows_are_choices.
(** When all labels but the first have the same number of values (so for one or two labels always). *)
Theorem C26_uniform : forall s ls, Forall (fun l => length (snd l) = s) (tl ls) ->
  (forall row, In row (label_combinations ls) <-> chooses ls row) /\
  (Forall (fun l => NoDup (snd l)) ls -> NoDup (label_combinations ls)).
Proof.
  intros s ls U. rewrite (combos_cart s ls U). split; [intros row; apply cart_iff|apply cart_nodup].
Qed.
Print Assumptions C26_uniform.
(** Exactly which labels get every choice: none has to be guessed. (With an empty label there is no choice and no row.) *)
Theorem C26_exact : forall ls, Forall (fun l => NoDup (snd l)) ls -> Forall (fun l => snd l <> []) ls ->
  ((forall row, chooses ls row -> In row (label_combinations ls)) <-> odometer ls).
Proof. exact complete_iff. Qed.
Print Assumptions C26_exact.
Example C26_exact_case :
  odometer [("a", ["1"]); ("b", ["x"; "y"]); ("c", ["p"; "q"; "r"])] /\
  ~ odometer [("name", ["a"; "b"; "c"]); ("v1", ["d"; "e"; "f"]); ("v2", ["g"; "h"])].
Proof.
  split.
  - right. exists [("a", ["1"])], ("b", ["x"; "y"]), [("c", ["p"; "q"; "r"])], 3%nat. splits; [reflexivity|repeat constructor|repeat constructor|right; cbn; auto].
  - intros [H|(ones & x & rest & s & E & A & B & C)]; [discriminate|]. destruct ones as [|o ones].
    + injection E as _ <-. inversion B as [|? ? B1 B2]; subst. inversion B2 as [|? ? B3 _]; subst. discriminate.
    + injection E as <- _. inversion A as [|? ? A1 _]. discriminate.
Qed.
Example C26_nonvacuous :
  let ls := [("a", ["1"; "2"; "3"]); ("b", ["x"; "y"]); ("c", ["p"; "q"])] in
  Forall (fun l => length (snd l) = 2%nat) (tl ls) /\ length (label_combinations ls) = 12%nat /\
  nth 5 (label_combinations ls) [] = [("a", "2"); ("b", "x"); ("c", "q")].
Proof. cbv zeta. split; [repeat constructor|vm_compute; auto]. Qed.

(** * C27: reading back what counters and gauges write *)
Theorem C27_counter_round_trip : forall name description help m,
  valid_name name = true -> one_line description ->
  Forall (Forall (fun p => label_name (fst p) /\ plain_value (snd p))) (mv_labels m) ->
  parse_exposition (enc_counter_vec name description help m) =
  Some (map (fun p => mkSample name (present (fst p)) (dec_z (snd p))) (combine (mv_labels m) (mv_cells m))).
Proof. exact counter_expo. Qed.
Print Assumptions C27_counter_round_trip.
Theorem C27_gauge_round_trip : forall P name description help m,
  (forall x, number_text (f64_str P x)) ->
  valid_name name = true -> one_line description ->
  Forall (Forall (fun p => label_name (fst p) /\ plain_value (snd p))) (mv_labels m) ->
  parse_exposition (enc_gauge_vec P name description help m) =
  Some (map (fun p => mkSample name (present (fst p)) (f64_str P (normalize_i64 (snd p)))) (combine (mv_labels m) (mv_cells m))).
Proof. exact gauge_expo. Qed.
Print Assumptions C27_gauge_round_trip.
(** No bucket line of any histogram is legal: the bound is not quoted. *)
Theorem C111_histogram_refuted : forall P name ls b, label_name name ->
  Forall (fun p => label_name (fst p) /\ plain_value (snd p)) ls ->
  (forall x c r, f64_str P x = String c r -> c <> quote) -> f64_str P (fst b) <> "" ->
  enc_bucket P name ls b = (name ++ "_bucket{" ++ enc_bucket_labels ls ++ "le=" ++ f64_str P (fst b) ++ "} " ++ dec (snd b)) ++ nl /\
  parse_line false (name ++ "_bucket{" ++ enc_bucket_labels ls ++ "le=" ++ f64_str P (fst b) ++ "} " ++ dec (snd b)) = None.
Proof.
  intros P name ls b N L Q NE. split; [|exact (bucket_line_illegal P name ls b N L Q NE)].
  unfold enc_bucket. rewrite !str_app_assoc. reflexivity.
Qed.
Print Assumptions C111_histogram_refuted.
(** Apart from those quotes nothing is wrong: a reader that takes label values without quotes recovers every bucket, the
    sum and the count of every series that has a sample, and only those. *)
Definition expected_samples (P : printers) (name : string) (p : labels * hist) : list sample :=
  if N.eqb (get_sample_count (snd p)) 0 then [] else
  (map (fun b => mkSample (name ++ "_bucket") (present (fst p) ++ [("le", f64_str P (fst b))]) (dec (snd b))) (h_buckets (snd p)) ++
   [mkSample (name ++ "_sum") (present (fst p)) (f64_str P (get_sample_sum (snd p)));
    mkSample (name ++ "_count") (present (fst p)) (dec (get_sample_count (snd p)))])%list.
Theorem C27_histogram_tolerant : forall P name description help ms,
  (forall x, number_text (f64_str P x)) -> (forall x, bound_text (f64_str P x)) ->
  valid_name name = true -> one_line description -> Forall (fun p => Forall (fun p => label_name (fst p) /\ plain_value (snd p)) (fst p)) ms ->
  parse_tolerant (enc_hist_vec P name description help ms) = Some (flat_map (expected_samples P name) ms).
Proof. exact hist_expo. Qed.
Print Assumptions C27_histogram_tolerant.
Example C27_histogram_nonvacuous :
  let P := {| f64_str := fun _ => "0.5"; date_str := fun _ => "" |} in
  let ms := [([("name", "a")], mkH 50000 1 [(f64_one, 1%N)]); ([("name", "b")], hist_new [f64_one])] in
  (forall x, number_text (f64_str P x)) /\ (forall x, bound_text (f64_str P x)) /\
  parse_tolerant (enc_hist_vec P "latency" "d" true ms) =
    Some [mkSample "latency_bucket" [("name", "a"); ("le", "0.5")] "1"; mkSample "latency_sum" [("name", "a")] "0.5"; mkSample "latency_count" [("name", "a")] "1"].
Proof. cbv zeta. splits; [split; [discriminate|vm_compute; auto]|split; [discriminate|vm_compute; auto 10]|vm_compute; reflexivity]. Qed.
(** Nor are label values escaped, although construction accepts them. *)
Theorem C111_quote_refuted : ~ (forall name lss m, valid_name name = true -> counter_vec_new lss = Val m ->
  Forall (Forall (fun p => label_name (fst p))) lss -> exists r, parse_exposition (enc_counter_vec name "d" true m) = Some r).
Proof.
  intros H. destruct (H "metric" [[("path", "C:\""x""")]] _ eq_refl eq_refl) as [r R]; [repeat constructor|].
  vm_compute in R. discriminate.
Qed.
Print Assumptions C111_quote_refuted.
Example C27_nonvacuous :
  let m := mkVec [[("name", "Nombre"); ("v1", "")]; [("name", ""); ("v1", "2")]] [5; -3]%Z in
  Forall (Forall (fun p => label_name (fst p) /\ plain_value (snd p))) (mv_labels m) /\ valid_name "simple_counter" = true /\
  parse_exposition (enc_counter_vec "simple_counter" "Simple Counter metric" true m) =
    Some [mkSample "simple_counter" [("name", "Nombre")] "5"; mkSample "simple_counter" [("v1", "2")] "-3"].
Proof. cbv zeta. split; [repeat constructor|vm_compute; auto]. Qed.

(** * C28 *)
Theorem C28_with_labels : forall ms ls k, with_labels ms ls = Some k <->
  nth_error ms k = Some ls /\ forall j, (j < k)%nat -> nth_error ms j <> Some ls.
Proof. exact with_labels_spec. Qed.
Print Assumptions C28_with_labels.
Theorem C28_with_labels_none : forall ms ls, with_labels ms ls = None <-> ~ In ls ms.
Proof. exact with_labels_none. Qed.
Print Assumptions C28_with_labels_none.
(** Distinct series are found by their own labels, and using one does not touch another. *)
Theorem C28_series_are_independent : forall ms j k lj lk cells v, NoDup ms -> nth_error ms j = Some lj -> nth_error ms k = Some lk -> j <> k ->
  with_labels ms lj = Some j /\ with_labels ms lk = Some k /\
  counter_get (act_run cells (ccall_acts (length ms) (CIncBy j v))) k = counter_get cells k /\
  counter_get (act_run cells (ccall_acts (length ms) (CReset j))) k = counter_get cells k.
Proof.
  intros ms j k lj lk cells v D Hj Hk N. split; [apply with_labels_unique; auto|split; [apply with_labels_unique; auto|]].
  split; apply act_other; exact N.
Qed.
Print Assumptions C28_series_are_independent.
Example C28_nonvacuous :
  with_labels [[("name", "Paco"); ("v1", "1")]; [("name", "Pepe"); ("v1", "2")]] [("name", "Pepe"); ("v1", "2")] = Some 1%nat /\
  with_labels [[("name", "Paco"); ("v1", "1")]] [("name", "Paco"); ("v1", "2")] = None.
Proof. split; reflexivity. Qed.

(** * C29 *)
Definition lower (a : ascii) : Prop := (97 <= N_of_ascii a <= 122)%N.
Definition inner (a : ascii) : Prop := lower a \/ (48 <= N_of_ascii a <= 57)%N \/ a = "_"%char.
Theorem C29_names : forall s, valid_name s = true <->
  exists a mid z, s = String a (mid ++ String z "") /\ mid <> "" /\ lower a /\ lower z /\ Forall inner (list_ascii_of_string mid).
Proof.
  assert (AZ : forall a, cls_az a = true <-> lower a).
  { intros a. unfold cls_az, in_range, lower. rewrite andb_true_iff, !N.leb_le. tauto. }
  assert (AN : forall s, only cls_azn s <-> Forall inner (list_ascii_of_string s)).
  { induction s as [|a s IH]; simpl; [split; auto|]. rewrite IH, Forall_cons_iff. 
    assert (E : cls_azn a = true <-> inner a); [|tauto]. unfold cls_azn, inner. rewrite !orb_true_iff, <- AZ.
    unfold cls_az, in_range. rewrite !andb_true_iff, !N.leb_le, Ascii.eqb_eq. tauto. }
  intros s. rewrite valid_name_iff. split.
  - intros (a & m & z & E & A & M & O & Z). exists a, m, z. rewrite <- AN, <- !AZ. auto.
  - intros (a & m & z & E & M & A & Z & O). exists a, m, z. rewrite AN, !AZ. auto.
Qed.
Print Assumptions C29_names.
(** A definition is created exactly for a valid name and a description of word characters and white space
    (descriptions restricted to ASCII, see the model), and keeps what it was given. *)
Theorem C29_definition : forall name description m d, metric_def_new name description m = Ok d <->
  d = mkDef name description m /\ valid_name name = true /\ description <> "" /\
  only (fun c => letter c || digit c || Ascii.eqb c " " || char_in 9 13 c) description.
Proof.
  intros. unfold metric_def_new. destruct (valid_name name); simpl; [|split; [discriminate|intros (_ & H & _); discriminate]].
  assert (E : valid_description description = true <-> description <> "" /\ only (fun c => letter c || digit c || Ascii.eqb c " " || char_in 9 13 c) description).
  { rewrite valid_description_iff. assert (K : forall c, (cls_w c || cls_s c) = (letter c || digit c || Ascii.eqb c " " || char_in 9 13 c)).
    { intros c. unfold cls_w, cls_s, letter, digit. change char_in with in_range. assert (B : in_range 32 32 c = Ascii.eqb c " ").
      { destruct c as [[] [] [] [] [] [] [] []]; reflexivity. }
      rewrite B. destruct (in_range 97 122 c), (in_range 65 90 c), (in_range 48 57 c), (Ascii.eqb c "_"), (Ascii.eqb c " "), (in_range 9 13 c); reflexivity. }
    split; intros [A B]; split; auto; eapply only_impl; try exact B; intros c; simpl; rewrite K; auto. }
  destruct (valid_description description); simpl.
  - split; [intros [= <-]; destruct (proj1 E eq_refl); auto|intros (-> & _); reflexivity].
  - split; [discriminate|]. intros (_ & _ & H). apply E in H. discriminate.
Qed.
Print Assumptions C29_definition.
Example C29_nonvacuous : valid_name "this_is_a_valid_name" = true /\ valid_name "this_is_NOT_a_valid_name" = false /\ valid_name "ab" = false /\ valid_name "a1b" = true /\ valid_name "abc_" = false.
Proof. vm_compute. auto. Qed.

(** * C63: gauges *)
Definition gauge_adds (i : nat) (c : gcall) : option Z :=
  match c with
  | GInc j => Some (if Nat.eqb i j then normalize_f64 f64_one else 0)
  | GDec j => Some (if Nat.eqb i j then - normalize_f64 f64_one else 0)
  | GIncBy j v => Some (if Nat.eqb i j then normalize_f64 v else 0)
  | GDecBy j v => Some (if Nat.eqb i j then - normalize_f64 v else 0)
  | GSet j _ | GReset j => if Nat.eqb i j then None else Some 0
  | GResetAll => None
  end%Z.
Theorem C63_no_lost_updates : forall n (ths : list (list gcall)) tr i amounts,
  (i < n)%nat -> map (gauge_adds i) (concat ths) = map Some amounts ->
  interleaves (map (flat_map (gcall_acts n)) ths) tr ->
  is_i64_of (nth i (act_run (zeros n) tr) 0%Z) (zsum amounts).
Proof.
  intros n ths tr i amounts L A IL. pose proof (interleaves_perm _ _ IL) as P. rewrite concat_flat in P.
  assert (R : forall a, In a tr -> stores i a = false).
  { intros a Ha. apply (Permutation.Permutation_in _ P) in Ha. apply in_flat_map in Ha. destruct Ha as (c & C1 & C2).
    assert (In (gauge_adds i c) (map Some amounts)) by (rewrite <- A; apply in_map; exact C1).
    apply in_map_iff in H. destruct H as (z & E & _). destruct c; simpl in *; try discriminate; destruct C2 as [<-|[]]; simpl; auto; destruct (Nat.eqb i i0); congruence. }
  replace (zsum amounts) with (cell_sum i 0 tr).
  - apply act_run_cell; [unfold zeros; rewrite repeat_length; exact L|apply zeros_is|].
    intros j v H. apply (Permutation.Permutation_in _ P) in H. apply in_flat_map in H. destruct H as (c & _ & C).
    destruct c as [i0|i0|i0 v0|i0 v0|i0 v0|i0|]; simpl in C; [..|apply in_map_iff in C; destruct C as (k & C & _); injection C as <- <-; lia];
      destruct C as [C|[]]; try discriminate; injection C as <- <-; [|lia].
    unfold normalize_f64, f64_as_i64. destruct (f64_mul v0 (int_as_f64 modifier)) as [| []| |[] m e]; try lia; pose proof (FieldP.trunc_mag_nonneg m e); lia.
  - rewrite cell_sum_adds by exact R. rewrite Z.add_0_l, (zsum_perm _ _ (Permutation.Permutation_map _ P)).
    clear - A. revert amounts A. induction (concat ths) as [|c cs IH]; intros amounts A; destruct amounts as [|z amounts]; try discriminate; auto.
    injection A as A1 A2. simpl. rewrite map_app, zsum_app, (IH _ A2). f_equal.
    destruct c; simpl in *; try discriminate; destruct (Nat.eqb i i0); try congruence; injection A1 as <-; lia.
Qed.
Print Assumptions C63_no_lost_updates.
(** A gauge set or reset holds what it was set to and what was added since; a reset gauge reads zero. *)
Theorem C63_since_set : forall n before after i v,
  (i < n)%nat -> (- 2 ^ 63 <= v < 2 ^ 63)%Z -> (forall a, In a after -> stores i a = false) ->
  (forall j w, In (AStore j w) (before ++ after)%list -> (- 2 ^ 63 <= w < 2 ^ 63)%Z) ->
  is_i64_of (nth i (act_run (zeros n) (before ++ AStore i v :: after)) 0%Z) (v + zsum (map (add_of i) after)).
Proof.
  intros n before after i v L V R K.
  assert (E : cell_sum i 0 (before ++ AStore i v :: after) = (v + zsum (map (add_of i) after))%Z).
  { rewrite <- (cell_sum_adds i v after R). generalize 0%Z. induction before as [|[j w|j w] r IH]; intros z; simpl;
      [rewrite Nat.eqb_refl; reflexivity|apply IH; intros; apply (K j0 w0); right; assumption|apply IH; intros; apply (K j0 w0); right; assumption]. }
  rewrite <- E. apply act_run_cell; [unfold zeros; rewrite repeat_length; exact L|apply zeros_is|].
  intros j w I. apply in_app_iff in I. destruct I as [I|[I|I]]; [apply (K j w), in_app_iff; auto|injection I as <- <-; exact V|apply (K j w), in_app_iff; auto].
Qed.
Print Assumptions C63_since_set.
(** A new gauge has the series it was asked for, each reading zero: the [zeros] above are its state. *)
Theorem C63_new : forall lss, mv_labels (gauge_vec_new lss) = lss /\ mv_cells (gauge_vec_new lss) = zeros (length lss)
  /\ forall i, gauge_get (mv_cells (gauge_vec_new lss)) i = S754_zero false.
Proof.
  intros lss. assert (Z : mv_cells (gauge_vec_new lss) = zeros (length lss)) by (induction lss as [|x l IH]; [reflexivity|cbn in *; f_equal; exact IH]).
  splits; [reflexivity|exact Z|]. intros i. rewrite Z. unfold gauge_get, zeros. rewrite nth_repeat. vm_compute. reflexivity.
Qed.
Print Assumptions C63_new.
Theorem C63_reset_reads_zero : forall n tr i c, (i < n)%nat -> c = GReset i \/ c = GResetAll ->
  gauge_get (act_run (act_run (zeros n) tr) (gcall_acts n c)) i = S754_zero false.
Proof.
  intros n tr i c L H. unfold gauge_get.
  enough (Z : nth i (act_run (act_run (zeros n) tr) (gcall_acts n c)) 0%Z = 0%Z) by (rewrite Z; vm_compute; reflexivity).
  destruct H as [->| ->]; [exact (C23_reset_reads_zero n tr i (CReset i) L (or_introl eq_refl))|exact (C23_reset_reads_zero n tr i CResetAll L (or_intror eq_refl))].
Qed.
Print Assumptions C63_reset_reads_zero.
(** Whole numbers up to 2^53 / 100000 in absolute value are read back exactly. *)
Theorem C63_whole_numbers_exact : forall x k i (m : list Z), is_f64 x -> float_is x k -> (Z.abs (k * 100000) < 2 ^ 53)%Z ->
  (i < length m)%nat -> float_is (gauge_get (act_run m (gcall_acts (length m) (GSet i x))) i) k.
Proof.
  intros x k i m X F K L. destruct (normalize_whole x k X K F) as [A B]. unfold gauge_get. simpl.
  rewrite upd_nth by exact L. rewrite Nat.eqb_refl, A. exact B.
Qed.
Print Assumptions C63_whole_numbers_exact.
(** But decimals are not: setting a gauge to the nearest [f64] of [d] / 100000 does not read as that number.
    For [d] = 115000 a gauge set to 1.15 reads 1.14999. *)
Definition hundred_thousandths (d : Z) : f64 := SFdiv 53 1024 (int_as_f64 d) (int_as_f64 100000).
Theorem C127_decimals_refuted : ~ (forall d, (0 <= d < 1000000)%Z ->
  gauge_get (act_run (zeros 1) (gcall_acts 1 (GSet 0 (hundred_thousandths d)))) 0 = hundred_thousandths d).
Proof.
  intros H. specialize (H 115000%Z ltac:(lia)). vm_compute in H. discriminate.
Qed.
Print Assumptions C127_decimals_refuted.

(** * C64: an accepted description can break the exposition (the code's own test accepts a newline) *)
Theorem C128_definitions_refuted : ~ (forall name description v d lss m, metric_def_new name description v = Ok d ->
  counter_vec_new lss = Val m -> Forall (Forall (fun p => label_name (fst p) /\ plain_value (snd p))) lss ->
  exists r, parse_exposition (enc_counter_vec name description true m) = Some r).
Proof.
  intros H. 
  destruct (H "metric" ("this is NOT" ++ nl ++ "a valid description") (MGauge (mkVec [] [])) _ [] _ eq_refl eq_refl) as [r R]; [constructor|].
  vm_compute in R. discriminate.
Qed.
Print Assumptions C128_definitions_refuted.
(** Without a newline it does not. *)
Theorem C64_one_line : forall name description v d lss m help, metric_def_new name description v = Ok d ->
  one_line description -> counter_vec_new lss = Val m ->
  Forall (Forall (fun p => label_name (fst p) /\ plain_value (snd p))) lss ->
  parse_exposition (enc_counter_vec name description help m) =
    Some (map (fun ls => mkSample name (present ls) "0") lss).
Proof.
  intros name description v d lss m help D O C L. apply C29_definition in D. destruct D as (_ & N & _).
  assert (VL : forall lss l, counter_vec_labels lss = Val l -> l = lss).
  { assert (CL : forall ls l, counter_labels ls = Val l -> l = ls).
    { induction ls as [|[a b] ls IH]; simpl; intros l H; [congruence|].
      destruct (str_has "010" a || str_has "010" b); [discriminate|]. destruct (counter_labels ls) as [l'| |]; try discriminate.
      simpl in H. injection H as <-. rewrite (IH l' eq_refl). reflexivity. }
    clear - CL. induction lss as [|ls lss IH]; simpl; intros l H; [congruence|].
    destruct (counter_labels ls) as [l1| |] eqn:E; try discriminate. simpl in H. destruct (counter_vec_labels lss) as [l2| |]; try discriminate.
    simpl in H. injection H as <-. rewrite (CL _ _ E), (IH l2 eq_refl). reflexivity. }
  unfold counter_vec_new in C. destruct (counter_vec_labels lss) as [l| |] eqn:E; try discriminate. apply VL in E. subst l. injection C as <-.
  rewrite counter_expo by assumption. cbn [mv_labels mv_cells]. f_equal. clear. induction lss as [|a l IH]; [reflexivity|]. cbn [map combine fst snd]. rewrite IH. reflexivity.
Qed.
Print Assumptions C64_one_line.

(** And so at any later time, whatever the metric counted: the name and description of an accepted definition of any kind of
    metric never break the exposition. *)
Theorem C64_at_any_time : forall P name description v d help,
  (forall x, number_text (f64_str P x)) -> (forall x, bound_text (f64_str P x)) ->
  metric_def_new name description v = Ok d -> one_line description ->
  match v with
  | MCounter m => Forall (Forall (fun p => label_name (fst p) /\ plain_value (snd p))) (mv_labels m) ->
      exists r, parse_exposition (enc_counter_vec (d_name d) (d_description d) help m) = Some r
        /\ Forall (fun x => s_name x = name) r /\ length r = length (combine (mv_labels m) (mv_cells m))
  | MGauge m => Forall (Forall (fun p => label_name (fst p) /\ plain_value (snd p))) (mv_labels m) ->
      exists r, parse_exposition (enc_gauge_vec P (d_name d) (d_description d) help m) = Some r
        /\ Forall (fun x => s_name x = name) r /\ length r = length (combine (mv_labels m) (mv_cells m))
  | MHistogram ms => Forall (fun p => Forall (fun p => label_name (fst p) /\ plain_value (snd p)) (fst p)) ms ->
      exists r, parse_tolerant (enc_hist_vec P (d_name d) (d_description d) help ms) = Some r
  end.
Proof.
  intros P name description v d help HN HB D O. apply C29_definition in D. destruct D as (-> & N & _). cbn [d_name d_description].
  destruct v as [m|m|ms]; intros L.
  - rewrite C27_counter_round_trip by assumption. eexists. splits; [reflexivity| |apply map_length].
    apply Forall_map. apply Forall_forall. reflexivity.
  - rewrite C27_gauge_round_trip by assumption. eexists. splits; [reflexivity| |apply map_length].
    apply Forall_map. apply Forall_forall. reflexivity.
  - rewrite C27_histogram_tolerant by assumption. eexists. reflexivity.
Qed.
Print Assumptions C64_at_any_time.

(** * C65: scraping while others observe. The encoder reads the count before the buckets. *)
Theorem C129_torn_scrape_refuted : ~ (forall le (ths : list (list f64)) tr1 tr2 tr3 k b n,
  interleaves (map (flat_map (observe_acts le)) ths) (tr1 ++ tr2 ++ tr3) ->
  nth_error (h_buckets (hact_run (hist_new le) (tr1 ++ tr2))) k = Some (b, n) ->
  (n <= get_sample_count (hact_run (hist_new le) tr1))%N).
Proof.
  intros H. specialize (H [int_as_f64 1] [[int_as_f64 1]] [] (observe_acts [int_as_f64 1] (int_as_f64 1)) [] 0%nat (int_as_f64 1) 1%N).
  assert (1 <= 0)%N; [|lia]. apply H; [|vm_compute; reflexivity].
  apply (interleaves_seq [flat_map (observe_acts [int_as_f64 1]) [int_as_f64 1]]).
Qed.
Print Assumptions C129_torn_scrape_refuted.
(** Read at one instant, no bucket exceeds the count, in the middle of any schedule. *)
Theorem C65_instant : forall le (ths : list (list f64)) tr1 tr2 k b n,
  interleaves (map (flat_map (observe_acts le)) ths) (tr1 ++ tr2) ->
  (N.of_nat (length (concat ths)) < 2 ^ 64)%N ->
  nth_error (h_buckets (hact_run (hist_new le) tr1)) k = Some (b, n) ->
  (n <= get_sample_count (hact_run (hist_new le) tr1))%N.
Proof. exact bucket_below_count. Qed.
Print Assumptions C65_instant.

(** * C83: a metric turned into the general type and back is the same metric; any other kind is refused. *)
Theorem C83_conversions : forall m,
  (forall v, to_gauge m = Ok v <-> m = of_gauge v) /\ (forall v, to_counter m = Ok v <-> m = of_counter v) /\
  (forall v, to_histogram m = Ok v <-> m = of_histogram v).
Proof. intros [v|v|v]; splits; intros w; cbv; split; congruence. Qed.
Print Assumptions C83_conversions.
Theorem C83_kinds_are_distinct : forall v w u, of_gauge v <> of_counter w /\ of_counter w <> of_histogram u /\ of_gauge v <> of_histogram u.
Proof. intros. splits; discriminate. Qed.
Print Assumptions C83_kinds_are_distinct.
