From Coq Require Import String Ascii NArith ZArith List Bool Lia.
From Verif Require Import Base.Arith Base.Str Base.Outcome Model.Field Model.Metrics Spec.MetricsSpec Proofs.MetricsP.
Import ListNotations.
Local Open Scope string_scope.

Lemma only_app f a b : only f (a ++ b) <-> only f a /\ only f b.
Proof. induction a; simpl; tauto. Qed.
Lemma only_impl (f g : ascii -> bool) s : (forall c, f c = true -> g c = true) -> only f s -> only g s.
Proof. intros H. induction s; simpl; auto. intros [A B]. auto. Qed.
Lemma snoc_app acc a r : snoc acc a ++ r = acc ++ String a r.
Proof. unfold snoc. rewrite str_app_assoc. reflexivity. Qed.
Lemma only_has f c s : f c = false -> only f s -> str_has c s = false.
Proof.
  intros H. induction s as [|a s IH]; simpl; auto. intros [A B]. destruct (Ascii.eqb_spec c a) as [->|]; [congruence|].
  destruct (Ascii.eqb_spec a c) as [->|]; [congruence|]. auto.
Qed.

Section Reader.
Variable tol : bool.
Lemma parse_name nm r acc : only (fun c => letter c || digit c) nm -> acc <> "" ->
  prom_parse tol (PName acc) (nm ++ r) = prom_parse tol (PName (acc ++ nm)) r.
Proof.
  revert acc. induction nm as [|a nm IH]; intros acc H N; [rewrite str_app_nil_r; reflexivity|].
  destruct H as [A B]. simpl. rewrite (proj2 (String.eqb_neq acc "") N). simpl. rewrite andb_true_r.
  replace (letter a || Ascii.eqb a ":" || digit a) with true by (destruct (letter a), (digit a), (Ascii.eqb a ":"); simpl in *; congruence).
  rewrite IH; auto; [rewrite snoc_app; reflexivity|]. unfold snoc. destruct acc; simpl; congruence.
Qed.
Lemma parse_label nm ls l acc r : only (fun c => letter c || digit c) l ->
  prom_parse tol (PLabel nm ls acc) (l ++ r) = prom_parse tol (PLabel nm ls (acc ++ l)) r.
Proof.
  revert acc. induction l as [|a l IH]; intros acc H; [rewrite str_app_nil_r; reflexivity|].
  destruct H as [A B]. simpl. rewrite A, IH by exact B. rewrite snoc_app. reflexivity.
Qed.
Lemma parse_text nm ls l v acc r : plain_value v ->
  prom_parse tol (PText nm ls l acc) (v ++ String quote r) = prom_parse tol (PAfter nm (ls ++ [(l, acc ++ v)])) r.
Proof.
  revert acc. induction v as [|a v IH]; intros acc H; [rewrite str_app_nil_r; reflexivity|].
  destruct H as [A B]. simpl. destruct (Ascii.eqb a quote); [discriminate|]. destruct (Ascii.eqb a backslash); [discriminate|].
  destruct (Ascii.eqb a newline); [discriminate|]. rewrite IH by exact B. rewrite snoc_app. reflexivity.
Qed.
Lemma parse_value nm ls v acc : number_text (acc ++ v) -> prom_parse tol (PValue nm ls acc) v = Some (mkSample nm ls (acc ++ v)).
Proof.
  revert acc. induction v as [|a v IH]; intros acc [N H]; simpl.
  - rewrite str_app_nil_r in *. destruct (String.eqb_spec acc ""); congruence.
  - rewrite <- snoc_app in *. assert (K := H). apply only_app in H. destruct H as [H _]. apply only_app in H. destruct H as [_ [H _]].
    destruct (Ascii.eqb a " "); [discriminate|]. destruct (Ascii.eqb a newline); [discriminate|]. simpl. apply IH. split; auto.
Qed.

Definition ok_label (p : string * string) : Prop := label_name (fst p) /\ plain_value (snd p).
Lemma letter_not_brace a : letter a = true -> Ascii.eqb a "}" = false.
Proof. intros H. destruct (Ascii.eqb_spec a "}") as [->|]; [discriminate|reflexivity]. Qed.

Lemma parse_one nm acc n v r : label_name n -> plain_value v ->
  prom_parse tol (PStart nm acc) (n ++ "=""" ++ v ++ """" ++ r) = prom_parse tol (PAfter nm (acc ++ [(n, v)])) r.
Proof.
  intros N V. destruct n as [|a n]; [destruct N|]. destruct N as [A B]. simpl. rewrite A.
  rewrite parse_label by exact B. simpl. rewrite (parse_text nm acc (String a n) v "" r V). reflexivity.
Qed.
Lemma parse_labels nm ls : Forall ok_label ls -> forall i len acc r, i + length ls = len ->
  prom_parse tol (PStart nm acc) (enc_labels i len ls ++ "} " ++ r) = prom_parse tol (PValue nm (acc ++ present ls) "") r.
Proof.
  induction 1 as [|[n v] ls [N V] H IH]; intros i len acc r L.
  - simpl. rewrite app_nil_r. reflexivity.
  - cbn [enc_labels present filter snd]. cbn [fst snd] in N, V. simpl in L.
    destruct (String.eqb_spec v "") as [->|NE]; cbn [negb].
    + rewrite IH by lia. reflexivity.
    + rewrite !str_app_assoc. rewrite parse_one by assumption.
      change (filter (fun p : string * string => negb (String.eqb (snd p) "")) ls) with (present ls).
      destruct (Nat.eqb_spec (S i) len) as [E|E].
      * assert (ls = []) by (destruct ls; simpl in L; [auto|lia]). subst ls. simpl. reflexivity.
      * transitivity (prom_parse tol (PStart nm (acc ++ [(n, v)])) (enc_labels (S i) len ls ++ "} " ++ r)); [reflexivity|].
        rewrite IH by lia. rewrite <- app_assoc. reflexivity.
Qed.
Lemma parse_sample name ls v : label_name name -> Forall ok_label ls -> number_text v ->
  parse_line tol (name ++ label_block ls ++ v) = Some (mkSample name (present ls) v).
Proof.
  intros N L V. unfold parse_line, label_block. destruct name as [|a name]; [destruct N|]. destruct N as [A B].
  cbn [append prom_parse]. rewrite A. cbn [orb]. rewrite parse_name; [|exact B|discriminate].
  rewrite !str_app_assoc. cbn [append]. cbn [prom_parse]. 
  transitivity (prom_parse tol (PStart (String a name) []) (enc_labels 0 (length ls) ls ++ "} " ++ v)); [reflexivity|].
  rewrite (parse_labels (String a name) ls L) by reflexivity. rewrite parse_value by exact V. reflexivity.
Qed.

(** * Whole expositions *)
Lemma lines_one acc line r : one_line line -> lines_from acc (line ++ nl ++ r) = option_map (cons (acc ++ line)) (lines_from "" r).
Proof.
  revert acc. induction line as [|a line IH]; intros acc H; simpl.
  - rewrite str_app_nil_r. reflexivity.
  - destruct H as [A B]. destruct (Ascii.eqb a newline); [discriminate|]. simpl in IH. rewrite IH by exact B. rewrite snoc_app. reflexivity.
Qed.
Lemma label_name_one s : label_name s -> one_line s.
Proof.
  destruct s as [|a s]; [intros []|]. intros [A B]. split.
  - destruct (Ascii.eqb_spec a newline) as [->|]; [discriminate|reflexivity].
  - eapply only_impl; [|exact B]. intros c H. cbv beta in *. destruct (Ascii.eqb_spec c newline) as [->|]; [discriminate|reflexivity].
Qed.
Lemma plain_one s : plain_value s -> one_line s.
Proof. apply only_impl. intros c H. destruct (Ascii.eqb c newline); [rewrite andb_false_r in H; discriminate|reflexivity]. Qed.
Lemma number_one s : number_text s -> one_line s.
Proof. intros [_ H]. eapply only_impl; [|exact H]. intros c K. cbv beta in *. destruct (Ascii.eqb c newline); [rewrite andb_false_r in K; discriminate|reflexivity]. Qed.
Lemma enc_labels_one ls : Forall ok_label ls -> forall i len, one_line (enc_labels i len ls).
Proof.
  induction 1 as [|[n v] ls [N V] H IH]; intros i len; [exact I|]. cbn [enc_labels].
  destruct (String.eqb v ""); [apply IH|]. unfold one_line. 
  rewrite !only_app. splits; try (simpl; tauto); try (apply label_name_one; exact N); try (apply plain_one; exact V); try apply IH.
  destruct (Nat.eqb (S i) len); simpl; auto.
Qed.
Lemma block_one ls : Forall ok_label ls -> one_line (label_block ls).
Proof. intros H. unfold label_block, one_line. rewrite !only_app. splits; try (simpl; tauto). apply enc_labels_one, H. Qed.

Lemma comment_line c l : parse_lines tol ((String "#" c) :: l) = parse_lines tol l.
Proof. reflexivity. Qed.
Lemma sample_line name rest l : label_name name ->
  parse_lines tol ((name ++ rest) :: l) = match parse_line tol (name ++ rest), parse_lines tol l with Some x, Some y => Some (x :: y) | _, _ => None end.
Proof.
  destruct name as [|a name]; [intros []|]. intros [A _]. cbn [parse_lines append].
  destruct (Ascii.eqb_spec a "#") as [->|NE]; [discriminate|].
  destruct a as [[] [] [] [] [] [] [] []]; try reflexivity. exfalso. apply NE. reflexivity.
Qed.

Lemma str_assoc4 (a b c d : string) : (a ++ b ++ c ++ d) = ((a ++ b ++ c) ++ d).
Proof. rewrite !str_app_assoc. reflexivity. Qed.
Lemma expo_samples {X} (name : string) (f : X -> labels * string) (xs : list X) : label_name name ->
  (forall x, In x xs -> Forall ok_label (fst (f x)) /\ number_text (snd (f x))) ->
  exposition tol (concat_str (map (fun x => name ++ label_block (fst (f x)) ++ snd (f x) ++ nl) xs)) =
  Some (map (fun x => mkSample name (present (fst (f x))) (snd (f x))) xs).
Proof.
  intros N H. unfold exposition. induction xs as [|x xs IH]; [reflexivity|].
  destruct (H x (or_introl eq_refl)) as [L V]. specialize (IH (fun y Hy => H y (or_intror Hy))).
  cbn [map concat_str fold_right]. rewrite str_assoc4, str_app_assoc. rewrite lines_one.
  - fold (concat_str (map (fun x => name ++ label_block (fst (f x)) ++ snd (f x) ++ nl) xs)).
    destruct (lines_from "" (concat_str (map (fun x => name ++ label_block (fst (f x)) ++ snd (f x) ++ nl) xs))) as [ls|]; [|discriminate].
    cbn [option_map append]. rewrite sample_line by exact N. rewrite IH, parse_sample by assumption. reflexivity.
  - unfold one_line. rewrite !only_app. splits; [apply label_name_one, N|apply block_one, L|apply number_one, V].
Qed.
Lemma expo_header name description kind help body : label_name name -> one_line description -> one_line kind ->
  exposition tol (enc_header name description kind help ++ body) = exposition tol body.
Proof.
  intros N D K. apply label_name_one in N. unfold enc_header, exposition.
  assert (T : forall b, match lines_from "" (("# TYPE " ++ name ++ " " ++ kind ++ nl) ++ b) with Some ls => parse_lines tol ls | None => None end =
              match lines_from "" b with Some ls => parse_lines tol ls | None => None end).
  { intros b. rewrite !str_app_assoc. 
    replace ("# TYPE " ++ name ++ " " ++ kind ++ nl ++ b) with (("# TYPE " ++ name ++ " " ++ kind) ++ nl ++ b) by (rewrite !str_app_assoc; reflexivity).
    rewrite lines_one; [destruct (lines_from "" b); reflexivity|]. unfold one_line. rewrite !only_app. splits; auto; simpl; tauto. }
  destruct help; [|apply T]. rewrite str_app_assoc.
  replace (("# HELP " ++ name ++ " " ++ description ++ nl) ++ ("# TYPE " ++ name ++ " " ++ kind ++ nl) ++ body)
    with (("# HELP " ++ name ++ " " ++ description) ++ nl ++ ("# TYPE " ++ name ++ " " ++ kind ++ nl) ++ body) by (rewrite !str_app_assoc; reflexivity).
  rewrite lines_one by (unfold one_line; rewrite !only_app; splits; auto; simpl; tauto).
  rewrite <- (T body). destruct (lines_from "" (("# TYPE " ++ name ++ " " ++ kind ++ nl) ++ body)); reflexivity.
Qed.

End Reader.
Lemma has_only c s : str_has c s = false -> only (fun a => negb (Ascii.eqb a c)) s.
Proof.
  induction s as [|a s IH]; simpl; auto. intros H. destruct (Ascii.eqb_spec c a) as [->|N].
  - rewrite ?Ascii.eqb_refl in H. discriminate.
  - destruct (Ascii.eqb_spec a c) as [->|]; [congruence|]. auto.
Qed.
Lemma only_and f g s : only f s -> only g s -> only (fun c => f c && g c) s.
Proof. induction s; simpl; auto. intros [-> A] [-> B]. auto. Qed.
Lemma dec_number n : number_text (dec n).
Proof.
  split; [apply dec_not_empty|]. apply only_and; apply has_only; apply dec_no_char; reflexivity.
Qed.
Lemma dec_z_number z : number_text (dec_z z).
Proof.
  unfold dec_z. destruct (dec_number (Z.abs_N z)) as [A B].
  destruct (Z.ltb z 0); [|split; auto; destruct (dec_number (Z.to_N z)); auto].
  split; [discriminate|]. simpl. split; auto. destruct (dec_number (Z.to_N (- z))); auto.
Qed.
Lemma valid_name_label name : valid_name name = true -> label_name name.
Proof.
  intros H. apply valid_name_iff in H. destruct H as (a & m & z & -> & A & _ & M & Z).
  assert (AZ : forall c, cls_az c = true -> letter c = true) by (intros c H; unfold letter; change char_in with in_range; unfold cls_az in H; rewrite H; reflexivity).
  split; [auto|]. apply only_app. split.
  - eapply only_impl; [|exact M]. intros c H. unfold cls_azn in H. unfold letter, digit. change char_in with in_range.
    destruct (in_range 97 122 c), (in_range 48 57 c), (Ascii.eqb c "_"), (in_range 65 90 c); simpl in *; congruence.
  - simpl. rewrite (AZ z Z). auto.
Qed.

Theorem counter_expo name description help m :
  valid_name name = true -> one_line description -> Forall (Forall ok_label) (mv_labels m) ->
  parse_exposition (enc_counter_vec name description help m) =
  Some (map (fun p => mkSample name (present (fst p)) (dec_z (snd p))) (combine (mv_labels m) (mv_cells m))).
Proof.
  intros N D L. apply valid_name_label in N. unfold enc_counter_vec, parse_exposition. rewrite expo_header; auto; [|unfold one_line; simpl; tauto].
  apply (expo_samples false name (fun p => (fst p, dec_z (snd p)))); auto.
  intros [ls z] H. apply in_combine_l in H. split; [|apply dec_z_number]. rewrite Forall_forall in L. apply L, H.
Qed.
Theorem gauge_expo P name description help m :
  (forall x, number_text (f64_str P x)) ->
  valid_name name = true -> one_line description -> Forall (Forall ok_label) (mv_labels m) ->
  parse_exposition (enc_gauge_vec P name description help m) =
  Some (map (fun p => mkSample name (present (fst p)) (f64_str P (normalize_i64 (snd p)))) (combine (mv_labels m) (mv_cells m))).
Proof.
  intros PF N D L. apply valid_name_label in N. unfold enc_gauge_vec, parse_exposition. rewrite expo_header; auto; [|unfold one_line; simpl; tauto].
  apply (expo_samples false name (fun p => (fst p, f64_str P (normalize_i64 (snd p))))); auto.
  intros [ls z] H. apply in_combine_l in H. split; [|apply PF]. rewrite Forall_forall in L. apply L, H.
Qed.

Section Reader2.
Variable tol : bool.
(** A histogram with at least one bound and one sample never yields a legal exposition. *)
Lemma parse_lines_none l r : parse_line tol l = None -> (forall c, l <> String "#" c) -> parse_lines tol (l :: r) = None.
Proof.
  intros H NE. destruct l as [|a l]; [simpl; reflexivity|]. cbn [parse_lines].
  destruct a as [[] [] [] [] [] [] [] []]; try (rewrite H; reflexivity). exfalso. apply (NE l). reflexivity.
Qed.
Lemma parse_bucket_labels nm ls : Forall ok_label ls -> forall acc r,
  prom_parse tol (PStart nm acc) (enc_bucket_labels ls ++ r) = prom_parse tol (PStart nm (acc ++ present ls)) r.
Proof.
  induction 1 as [|[n v] ls [N V] H IH]; intros acc r; [simpl; rewrite app_nil_r; reflexivity|].
  cbn [enc_bucket_labels present filter snd]. cbn [fst snd] in N, V.
  destruct (String.eqb v ""); cbn [negb]; [apply IH|]. rewrite !str_app_assoc.
  change (n ++ "=""" ++ v ++ """," ++ enc_bucket_labels ls ++ r) with (n ++ "=""" ++ v ++ """" ++ ("," ++ enc_bucket_labels ls ++ r)).
  rewrite parse_one by assumption. cbn [append prom_parse]. cbv [Ascii.eqb Bool.eqb]. rewrite IH, <- app_assoc. reflexivity.
Qed.
End Reader2.
Theorem bucket_line_illegal P name ls b : label_name name -> Forall ok_label ls ->
  (forall x c r, f64_str P x = String c r -> c <> quote) -> f64_str P (fst b) <> "" ->
  parse_line false (name ++ "_bucket{" ++ enc_bucket_labels ls ++ "le=" ++ f64_str P (fst b) ++ "} " ++ dec (snd b)) = None.
Proof.
  intros N L Q NE. unfold parse_line. destruct name as [|a name]; [destruct N|]. destruct N as [A B].
  cbn [append prom_parse]. rewrite A. cbn [orb]. 
  rewrite parse_name; [|exact B|discriminate].
  set (R := enc_bucket_labels ls ++ "le=" ++ f64_str P (fst b) ++ "} " ++ dec (snd b)).
  transitivity (prom_parse false (PStart (((snoc "" a ++ name)) ++ "_bucket") []) R).
  { assert (K : forall (acc : string) c, (letter c || digit c) = true -> acc <> "" -> forall r, prom_parse false (PName acc) (String c r) = prom_parse false (PName (snoc acc c)) r).
    { intros acc c H NA r. apply (parse_name false (String c "") r acc); [simpl; auto|exact NA]. }
    assert (SN : forall acc c, snoc acc c <> "") by (intros [|] c; discriminate).
    cbn [append]. do 7 (rewrite K; [|reflexivity|first [apply SN|discriminate]]).
    set (nm := snoc (snoc _ "e") "t"). assert (E : nm = (snoc "" a ++ name) ++ "_bucket").
    { unfold nm, snoc. rewrite !str_app_assoc. reflexivity. }
    rewrite <- E. assert (NM : String.eqb nm "" = false) by (rewrite E; reflexivity).
    cbn [prom_parse]. rewrite NM. reflexivity. }
  unfold R. rewrite parse_bucket_labels by exact L. cbn [append prom_parse]. 
  match goal with |- context [letter "l"] => change (letter "l") with true; cbv iota end.
  change (letter "e" || digit "e") with true. cbv iota. change (letter "=" || digit "=") with false. change (Ascii.eqb "=" "=") with true. cbv iota.
  destruct (f64_str P (fst b)) as [|c r] eqn:E; [congruence|]. cbn [append prom_parse].
  destruct (Ascii.eqb_spec c quote) as [->|]; [|reflexivity]. exfalso. apply (Q _ _ _ E). reflexivity.
Qed.

(** * Histograms, read by the tolerant reader *)
Lemma parse_bare nm ls l v : only bare v -> forall acc r,
  prom_parse true (PBare nm ls l acc) (v ++ "} " ++ r) = prom_parse true (PValue nm (ls ++ [(l, acc ++ v)]) "") r.
Proof.
  induction v as [|a v IH]; intros H acc r.
  - rewrite str_app_nil_r. cbn [append prom_parse]. change (bare "}") with false. cbv iota. reflexivity.
  - destruct H as [A B]. change ((String a v) ++ "} " ++ r) with (String a (v ++ "} " ++ r)). cbn [prom_parse]. rewrite A. rewrite IH by exact B. rewrite snoc_app. reflexivity.
Qed.
Lemma parse_open name r : label_name name ->
  prom_parse true (PName "") (name ++ "{" ++ r) = prom_parse true (PStart name []) r.
Proof.
  intros N. destruct name as [|a name]; [destruct N|]. destruct N as [A B].
  cbn [append prom_parse]. rewrite A. cbn [orb]. rewrite parse_name; [|exact B|discriminate]. reflexivity.
Qed.
Lemma label_name_app a b : label_name a -> only (fun c => letter c || digit c) b -> label_name (a ++ b).
Proof. destruct a as [|x a]; [intros []|]. intros [A B] C. split; [exact A|]. apply only_app. auto. Qed.
Lemma bucket_line_tolerant P name ls b : label_name name -> Forall ok_label ls -> bound_text (f64_str P (fst b)) ->
  parse_line true (name ++ "_bucket{" ++ enc_bucket_labels ls ++ "le=" ++ f64_str P (fst b) ++ "} " ++ dec (snd b)) =
  Some (mkSample (name ++ "_bucket") (present ls ++ [("le", f64_str P (fst b))]) (dec (snd b))).
Proof.
  intros N L [NE Q]. unfold parse_line.
  change ("_bucket{" ++ enc_bucket_labels ls ++ "le=" ++ f64_str P (fst b) ++ "} " ++ dec (snd b))
    with ("_bucket" ++ ("{" ++ enc_bucket_labels ls ++ "le=" ++ f64_str P (fst b) ++ "} " ++ dec (snd b))).
  rewrite <- str_app_assoc. rewrite parse_open by (apply label_name_app; [exact N|simpl; tauto]).
  rewrite parse_bucket_labels by exact L. cbn [append prom_parse].
  change (letter "l") with true. cbv iota.
  change (letter "e" || digit "e") with true. cbv iota. change (letter "=" || digit "=") with false. change (Ascii.eqb "=" "=") with true. cbv iota.
  destruct (f64_str P (fst b)) as [|c r] eqn:E; [congruence|]. cbn [append prom_parse]. destruct Q as [QA QB].
  assert (NQ : Ascii.eqb c quote = false) by (unfold bare in QA; destruct (Ascii.eqb c quote); [discriminate|reflexivity]).
  rewrite NQ, QA. cbn [andb].
  change (r ++ String "}" (String " " (dec (snd b)))) with (r ++ "} " ++ dec (snd b)). rewrite parse_bare by exact QB.
  rewrite parse_value by apply dec_number. reflexivity.
Qed.
Lemma expo_cons tol name rest r : label_name name -> one_line rest ->
  exposition tol ((name ++ rest) ++ nl ++ r) =
  match parse_line tol (name ++ rest), exposition tol r with Some x, Some y => Some (x :: y) | _, _ => None end.
Proof.
  intros N O. unfold exposition. rewrite lines_one.
  - destruct (lines_from "" r) as [ls|]; cbn [option_map append].
    + apply sample_line, N.
    + destruct (parse_line tol (name ++ rest)); reflexivity.
  - unfold one_line. rewrite only_app. split; [apply label_name_one, N|exact O].
Qed.
Lemma bucket_labels_one ls : Forall ok_label ls -> one_line (enc_bucket_labels ls).
Proof.
  induction 1 as [|[n v] ls [N V] H IH]; [exact I|]. cbn [enc_bucket_labels].
  destruct (String.eqb v ""); [apply IH|]. unfold one_line.
  rewrite !only_app. splits; try (simpl; tauto); try (apply label_name_one; exact N); try (apply plain_one; exact V); try apply IH.
Qed.
Lemma bare_one s : only bare s -> one_line s.
Proof. apply only_impl. intros c H. unfold bare in H. destruct (Ascii.eqb c newline); [rewrite andb_false_r in H; discriminate|reflexivity]. Qed.

Definition hist_samples (P : printers) (name : string) (p : labels * hist) : list sample :=
  if N.eqb (get_sample_count (snd p)) 0 then [] else
  (map (fun b => mkSample (name ++ "_bucket") (present (fst p) ++ [("le", f64_str P (fst b))]) (dec (snd b))) (h_buckets (snd p)) ++
   [mkSample (name ++ "_sum") (present (fst p)) (f64_str P (get_sample_sum (snd p)));
    mkSample (name ++ "_count") (present (fst p)) (dec (get_sample_count (snd p)))])%list.
Lemma expo_hist P name ls h r rs : (forall x, number_text (f64_str P x)) -> (forall x, bound_text (f64_str P x)) ->
  label_name name -> Forall ok_label ls -> exposition true r = Some rs ->
  exposition true (enc_hist P name ls h ++ r) = Some (hist_samples P name (ls, h) ++ rs)%list.
Proof.
  intros PN PB N L R. unfold enc_hist, hist_samples. cbn [fst snd]. unfold get_sample_count.
  destruct (N.eqb (h_count h) 0); [exact R|].
  assert (T : forall r rs, exposition true r = Some rs -> exposition true ((name ++ "_sum" ++ label_block ls ++ f64_str P (get_sample_sum h) ++ nl ++
       name ++ "_count" ++ label_block ls ++ dec (h_count h) ++ nl) ++ r) =
       Some ([mkSample (name ++ "_sum") (present ls) (f64_str P (get_sample_sum h)); mkSample (name ++ "_count") (present ls) (dec (h_count h))] ++ rs)%list).
  { clear r rs R. intros r rs R.
    replace ((name ++ "_sum" ++ label_block ls ++ f64_str P (get_sample_sum h) ++ nl ++ name ++ "_count" ++ label_block ls ++ dec (h_count h) ++ nl) ++ r)
      with (((name ++ "_sum") ++ label_block ls ++ f64_str P (get_sample_sum h)) ++ nl ++ (((name ++ "_count") ++ label_block ls ++ dec (h_count h)) ++ nl ++ r))
      by (rewrite !str_app_assoc; reflexivity).
    rewrite expo_cons.
    2: apply label_name_app; [exact N|simpl; tauto].
    2: unfold one_line; rewrite only_app; split; [apply block_one, L|apply number_one, PN].
    rewrite parse_sample; [|apply label_name_app; [exact N|simpl; tauto]|exact L|apply PN].
    rewrite expo_cons.
    2: apply label_name_app; [exact N|simpl; tauto].
    2: unfold one_line; rewrite only_app; split; [apply block_one, L|apply number_one, dec_number].
    rewrite parse_sample; [|apply label_name_app; [exact N|simpl; tauto]|exact L|apply dec_number].
    rewrite R. reflexivity. }
  rewrite str_app_assoc. induction (h_buckets h) as [|b bs IH]; [exact (T r rs R)|].
  cbn [map concat_str fold_right]. fold (concat_str (map (enc_bucket P name ls) bs)). unfold enc_bucket at 1.
  replace (((name ++ "_bucket{" ++ enc_bucket_labels ls ++ "le=" ++ f64_str P (fst b) ++ "} " ++ dec (snd b) ++ nl) ++
            concat_str (map (enc_bucket P name ls) bs)) ++
           (name ++ "_sum" ++ label_block ls ++ f64_str P (get_sample_sum h) ++ nl ++
            name ++ "_count" ++ label_block ls ++ dec (h_count h) ++ nl) ++ r)
    with ((name ++ ("_bucket{" ++ enc_bucket_labels ls ++ "le=" ++ f64_str P (fst b) ++ "} " ++ dec (snd b))) ++ nl ++
          (concat_str (map (enc_bucket P name ls) bs) ++
           (name ++ "_sum" ++ label_block ls ++ f64_str P (get_sample_sum h) ++ nl ++
            name ++ "_count" ++ label_block ls ++ dec (h_count h) ++ nl) ++ r)) by (rewrite !str_app_assoc; reflexivity).
  rewrite expo_cons; [|exact N|].
  - rewrite bucket_line_tolerant by (auto; apply PB). rewrite IH. reflexivity.
  - unfold one_line. rewrite !only_app. splits; try (simpl; tauto).
    + apply bucket_labels_one, L.
    + apply bare_one, PB.
    + apply number_one, dec_number.
Qed.
Theorem hist_expo P name description help ms : (forall x, number_text (f64_str P x)) -> (forall x, bound_text (f64_str P x)) ->
  valid_name name = true -> one_line description -> Forall (fun p => Forall ok_label (fst p)) ms ->
  parse_tolerant (enc_hist_vec P name description help ms) = Some (flat_map (hist_samples P name) ms).
Proof.
  intros PN PB N D L. apply valid_name_label in N. unfold enc_hist_vec, parse_tolerant.
  assert (B : exposition true (concat_str (map (fun p => enc_hist P name (fst p) (snd p)) ms)) = Some (flat_map (hist_samples P name) ms)).
  { clear D. induction L as [|[ls h] ms L _ IH]; [reflexivity|]. cbn [map concat_str fold_right flat_map fst snd].
    fold (concat_str (map (fun p : labels * hist => enc_hist P name (fst p) (snd p)) ms)). apply expo_hist; auto. }
  destruct ms as [|p ms]; [reflexivity|]. rewrite expo_header; auto. unfold one_line; simpl; tauto.
Qed.
