(** C183, C184: the comments of an exposition, and the types they declare. *)
From Coq Require Import String Ascii NArith ZArith List Bool Lia.
From Verif Require Import Base.Arith Base.Str Base.Outcome Model.Field Model.Metrics Spec.FieldSpec Spec.MetricsSpec Proofs.MetricsP Proofs.PromP.
Import ListNotations.
Local Open Scope string_scope.

(** Specification: the comment lines of an exposition; a line of the form [# TYPE name kind] declares the type of a metric. *)
Definition is_comment (l : string) : bool := match l with String c _ => Ascii.eqb c "#" | _ => false end.
Definition comments (txt : string) : option (list string) := option_map (filter is_comment) (lines_from "" txt).
Definition type_line (name kind : string) : string := "# TYPE " ++ name ++ " " ++ kind.
Definition help_line (name description : string) : string := "# HELP " ++ name ++ " " ++ description.
(** The types of the format *)
Definition kinds : list string := ["counter"; "gauge"; "histogram"; "summary"; "untyped"].

(** Text that is lines without comments *)
Definition no_comments (s : string) : Prop := exists ls, filter is_comment ls = [] /\ forall r, lines_from "" (s ++ r) = option_map (app ls) (lines_from "" r).
Lemma no_comments_nil : no_comments "".
Proof. exists []. split; [reflexivity|]. intros r. cbn [append]. destruct (lines_from "" r); reflexivity. Qed.
Lemma no_comments_app a b : no_comments a -> no_comments b -> no_comments (a ++ b).
Proof.
  intros (la & Fa & A) (lb & Fb & B). exists (la ++ lb)%list. split; [rewrite filter_app, Fa, Fb; reflexivity|]. intros r.
  rewrite str_app_assoc, A, B. destruct (lines_from "" r); cbn [option_map]; [rewrite app_assoc; reflexivity|reflexivity].
Qed.
Lemma no_comments_concat l : Forall no_comments l -> no_comments (concat_str l).
Proof. induction 1; [apply no_comments_nil|]. cbn [concat_str fold_right]. apply no_comments_app; assumption. Qed.
Lemma no_comments_line name rest : label_name name -> one_line rest -> no_comments ((name ++ rest) ++ nl).
Proof.
  intros N O. exists [name ++ rest]. split.
  - destruct name as [|a name]; [destruct N|]. destruct N as [A _]. cbn [filter append is_comment]. destruct (Ascii.eqb_spec a "#") as [->|]; [discriminate A|reflexivity].
  - intros r. rewrite str_app_assoc, lines_one; [destruct (lines_from "" r); reflexivity|].
    unfold one_line. rewrite only_app. split; [apply label_name_one, N|exact O].
Qed.
Lemma header_comments name description kind help body : label_name name -> one_line description -> one_line kind -> no_comments body ->
  comments (enc_header name description kind help ++ body)
  = Some ((if help then [help_line name description] else []) ++ [type_line name kind])%list.
Proof.
  intros N D K (ls & F & B). specialize (B ""). rewrite str_app_nil_r in B. cbn in B. rewrite app_nil_r in B. apply label_name_one in N. unfold enc_header, comments.
  assert (T : lines_from "" (("# TYPE " ++ name ++ " " ++ kind ++ nl) ++ body) = Some (type_line name kind :: ls)).
  { replace (("# TYPE " ++ name ++ " " ++ kind ++ nl) ++ body) with (type_line name kind ++ nl ++ body) by (unfold type_line; rewrite !str_app_assoc; reflexivity).
    rewrite lines_one, B; [reflexivity|]. unfold one_line, type_line. rewrite !only_app. splits; auto; simpl; tauto. }
  destruct help.
  - replace ((("# HELP " ++ name ++ " " ++ description ++ nl) ++ "# TYPE " ++ name ++ " " ++ kind ++ nl) ++ body)
      with (help_line name description ++ nl ++ ("# TYPE " ++ name ++ " " ++ kind ++ nl) ++ body) by (unfold help_line; rewrite !str_app_assoc; reflexivity).
    rewrite lines_one, T.
    + cbn [option_map filter append]. unfold help_line, type_line at 1. cbn [append is_comment]. rewrite F. reflexivity.
    + unfold one_line, help_line. rewrite !only_app. splits; auto; simpl; tauto.
  - match goal with |- context [("" ++ ?a) ++ ?b] => change (("" ++ a) ++ b) with (a ++ b) end. rewrite T. cbn [option_map filter]. unfold type_line at 1. cbn [append is_comment]. rewrite F. reflexivity.
Qed.
Definition labels_ok (ls : labels) : Prop := Forall (fun p => label_name (fst p) /\ plain_value (snd p)) ls.

(** A counter and a gauge: what they are for, if asked for, and their type; nothing else is commented. *)
Theorem C183_counter : forall name description help m, valid_name name = true -> one_line description -> Forall labels_ok (mv_labels m) ->
  comments (enc_counter_vec name description help m) = Some ((if help then [help_line name description] else []) ++ [type_line name "counter"])%list.
Proof.
  intros name description help m N D L. apply valid_name_label in N. apply header_comments; auto; [unfold one_line; simpl; tauto|].
  apply no_comments_concat, Forall_map, Forall_forall. intros [ls z] I. unfold enc_counter. cbn [fst snd].
  replace (name ++ label_block ls ++ dec_z z ++ nl) with ((name ++ label_block ls ++ dec_z z) ++ nl) by (rewrite !str_app_assoc; reflexivity).
  apply no_comments_line; [exact N|]. unfold one_line. rewrite only_app. split; [|apply number_one, dec_z_number]. apply block_one.
  rewrite Forall_forall in L. exact (L _ (in_combine_l _ _ _ _ I)).
Qed.
Print Assumptions C183_counter.
Theorem C183_gauge : forall P name description help m, (forall x, number_text (f64_str P x)) -> valid_name name = true -> one_line description -> Forall labels_ok (mv_labels m) ->
  comments (enc_gauge_vec P name description help m) = Some ((if help then [help_line name description] else []) ++ [type_line name "gauge"])%list.
Proof.
  intros P name description help m PN N D L. apply valid_name_label in N. apply header_comments; auto; [unfold one_line; simpl; tauto|].
  apply no_comments_concat, Forall_map, Forall_forall. intros [ls z] I. unfold enc_gauge. cbn [fst snd].
  replace (name ++ label_block ls ++ f64_str P (normalize_i64 z) ++ nl) with ((name ++ label_block ls ++ f64_str P (normalize_i64 z)) ++ nl) by (rewrite !str_app_assoc; reflexivity).
  apply no_comments_line; [exact N|]. unfold one_line. rewrite only_app. split; [|apply number_one, PN]. apply block_one.
  rewrite Forall_forall in L. exact (L _ (in_combine_l _ _ _ _ I)).
Qed.
Print Assumptions C183_gauge.
Lemma hist_no_comments P name ls h : (forall x, number_text (f64_str P x)) -> (forall x, bound_text (f64_str P x)) -> label_name name -> labels_ok ls ->
  no_comments (enc_hist P name ls h).
Proof.
  intros PN PB N L. unfold enc_hist. destruct (N.eqb (h_count h) 0); [apply no_comments_nil|]. apply no_comments_app.
  - apply no_comments_concat, Forall_map, Forall_forall. intros b _. unfold enc_bucket.
    replace (name ++ "_bucket{" ++ enc_bucket_labels ls ++ "le=" ++ f64_str P (fst b) ++ "} " ++ dec (snd b) ++ nl)
      with ((name ++ ("_bucket{" ++ enc_bucket_labels ls ++ "le=" ++ f64_str P (fst b) ++ "} " ++ dec (snd b))) ++ nl) by (rewrite !str_app_assoc; reflexivity).
    apply no_comments_line; [exact N|]. unfold one_line. rewrite !only_app.
    splits; try (simpl; tauto); [apply bucket_labels_one, L|apply bare_one, PB|apply number_one, dec_number].
  - replace (name ++ "_sum" ++ label_block ls ++ f64_str P (get_sample_sum h) ++ nl ++ name ++ "_count" ++ label_block ls ++ dec (h_count h) ++ nl)
      with (((name ++ ("_sum" ++ label_block ls ++ f64_str P (get_sample_sum h))) ++ nl) ++ ((name ++ ("_count" ++ label_block ls ++ dec (h_count h))) ++ nl)) by (rewrite !str_app_assoc; reflexivity).
    apply no_comments_app; (apply no_comments_line; [exact N|]); unfold one_line; rewrite !only_app; splits; try (simpl; tauto); try (apply block_one, L);
      apply number_one; [apply PN|apply dec_number].
Qed.
(** A histogram without series is not mentioned; any other is declared with a blank after the type. *)
Theorem C183_histogram : forall P name description help ms, (forall x, number_text (f64_str P x)) -> (forall x, bound_text (f64_str P x)) ->
  valid_name name = true -> one_line description -> Forall (fun p => labels_ok (fst p)) ms ->
  comments (enc_hist_vec P name description help ms)
  = Some (match ms with [] => [] | _ => (if help then [help_line name description] else []) ++ [type_line name "histogram "] end)%list.
Proof.
  intros P name description help ms PN PB N D L. apply valid_name_label in N. destruct ms as [|p ms]; [reflexivity|]. unfold enc_hist_vec.
  apply header_comments; auto; [unfold one_line; simpl; tauto|].
  apply no_comments_concat, Forall_map. eapply Forall_impl; [|exact L]. intros [ls h] X. cbn [fst snd] in *. apply hist_no_comments; auto.
Qed.
Print Assumptions C183_histogram.

(** C184. Full property: the type an exposition declares for a metric is one of the types of the format. *)
Definition declares (txt name kind : string) : Prop := exists c, comments txt = Some c /\ In (type_line name kind) c.
Definition histograms_declared := forall P name description help ms, (forall x, number_text (f64_str P x)) -> (forall x, bound_text (f64_str P x)) ->
  valid_name name = true -> one_line description -> Forall (fun p => labels_ok (fst p)) ms -> ms <> [] ->
  exists kind, In kind kinds /\ declares (enc_hist_vec P name description help ms) name kind.
Lemma app_inj_l a b c : a ++ b = a ++ c -> b = c.
Proof. induction a as [|x a IH]; [auto|]. cbn [append]. intros E. apply IH. congruence. Qed.
(** No histogram is: none of the lines with comments is the declaration of a type of the format. *)
Theorem C184_histogram_refuted : forall P name description help ms, (forall x, number_text (f64_str P x)) -> (forall x, bound_text (f64_str P x)) ->
  valid_name name = true -> one_line description -> Forall (fun p => labels_ok (fst p)) ms -> ms <> [] ->
  forall kind, In kind kinds -> ~ declares (enc_hist_vec P name description help ms) name kind.
Proof.
  intros P name description help ms PN PB N D L NE kind K (c & C & I). rewrite (C183_histogram P name description help ms PN PB N D L) in C.
  destruct ms as [|p ms]; [congruence|]. injection C as <-. assert (X : kind = "histogram ").
  { destruct help; cbn [app In] in I.
    - destruct I as [I|[I|[]]]; [unfold help_line, type_line in I; cbn [append] in I; discriminate I|]. unfold type_line in I. apply app_inj_l, app_inj_l, app_inj_l in I. congruence.
    - destruct I as [I|[]]. unfold type_line in I. apply app_inj_l, app_inj_l, app_inj_l in I. congruence. }
  subst kind. cbn [kinds In] in K. repeat (destruct K as [K|K]; [discriminate K|]). exact K.
Qed.
Print Assumptions C184_histogram_refuted.
Theorem C184_refuted : ~ histograms_declared.
Proof.
  intros H. set (P := Build_printers (fun _ => "1") (fun _ => "")).
  assert (PN : forall x, number_text (f64_str P x)) by (intros x; split; [discriminate|simpl; auto]).
  assert (PB : forall x, bound_text (f64_str P x)) by (intros x; split; [discriminate|simpl; auto]).
  assert (V : valid_name "latency" = true) by (vm_compute; reflexivity).
  assert (L : Forall (fun p : labels * hist => labels_ok (fst p)) (hist_vec_new [[]])) by (constructor; constructor).
  assert (NE : hist_vec_new [[]] <> []) by discriminate.
  destruct (H P "latency" "" true (hist_vec_new [[]]) PN PB V I L NE) as (kind & K & X).
  exact (C184_histogram_refuted P "latency" "" true (hist_vec_new [[]]) PN PB V I L NE kind K X).
Qed.
Print Assumptions C184_refuted.

Example C183_case : comments (enc_counter_vec "requests" "all requests" true (mkVec [[("src", "a")]; [("src", "b")]] [3; 4]%Z))
  = Some ["# HELP requests all requests"; "# TYPE requests counter"]
  /\ declares (enc_counter_vec "requests" "all requests" true (mkVec [[("src", "a")]; [("src", "b")]] [3; 4]%Z)) "requests" "counter" /\ In "counter" kinds.
Proof. splits; [vm_compute; reflexivity| |left; reflexivity]. eexists. split; [vm_compute; reflexivity|right; left; reflexivity]. Qed.
