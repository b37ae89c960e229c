(** Properties C10-C13: field values (src/events/field.rs).
    [P] is the pair of std/chrono text functions for floats and dates: the theorems hold for any choice. *)
From Coq Require Import String Ascii List NArith ZArith Floats.SpecFloat Lia.
From Verif Require Import Base.Arith Base.Str Base.Outcome Spec.TextSpec Spec.FieldSpec Model.IpUtils Model.Ip Model.Field Proofs.FieldP Proofs.RoundP.
Import ListNotations.
Local Open Scope string_scope.
Local Open Scope N_scope.

(** C99. Full property: [field_eqb] is an equivalence and separates different contents. *)
Theorem C10_reflexive : forall P f, field_eqb P f f = true.
Proof. exact field_eqb_refl. Qed.
Print Assumptions C10_reflexive.
(** A number, date, array, path or null equals EVERY text, while the text does not equal it. *)
Theorem C99_symmetric_refuted : forall P,
  (forall n t, field_eqb P (U64 n) (Text t) = true) /\ field_eqb P (Text "hello") (U64 5) = false.
Proof. exact (fun P => conj (fun n t => text_always_equal P (U64 n) t eq_refl) eq_refl). Qed.
Print Assumptions C99_symmetric_refuted.
Theorem C99_transitive_refuted : forall P, field_eqb P (U64 5) (Text "x") = true /\ field_eqb P (Text "x") (Domain "x") = true /\
  field_eqb P (U64 5) (Domain "x") = false.
Proof. exact (fun P => conj eq_refl (conj eq_refl eq_refl)). Qed.
Print Assumptions C99_transitive_refuted.
Theorem C99_distinct_contents_refuted : forall P, field_eqb P (Path "/etc/passwd") (Path "/tmp") = true /\
  field_eqb P (Array ["a,b"]) (Array ["a"; "b"]) = true /\ field_eqb P Null (Path "/tmp") = true.
Proof. exact (fun P => conj eq_refl (conj eq_refl eq_refl)). Qed.
Print Assumptions C99_distinct_contents_refuted.
(** What holds. Among fields that are not plain texts equality is symmetric and transitive; so it is among
    texts, domains, users, assets and IPs, where it means exactly that they display alike. *)
Theorem C10_equivalence_without_text : forall P a b c, field_ok a -> field_ok b -> field_ok c ->
  (forall t, a <> Text t) -> (forall t, b <> Text t) -> (forall t, c <> Text t) ->
  (field_eqb P a b = true -> field_eqb P b a = true) /\
  (field_eqb P a b = true -> field_eqb P b c = true -> field_eqb P a c = true).
Proof.
  exact (fun P a b c Ka Kb Kc Ha Hb Hc => untext_equivalence P a b c Ka Kb Kc (not_Text_b a Ha) (not_Text_b b Hb) (not_Text_b c Hc)).
Qed.
Print Assumptions C10_equivalence_without_text.
Theorem C10_textual_equality : forall P a b, field_ok a -> field_ok b ->
  ((exists s, textual a s) \/ exists ip, a = IP ip) -> ((exists s, textual b s) \/ exists ip, b = IP ip) ->
  (field_eqb P a b = true <-> display P a = display P b).
Proof. exact (fun P a b Ka Kb Ha Hb => named_eq P a b Ka Kb (named_b a Ha) (named_b b Hb)). Qed.
Print Assumptions C10_textual_equality.
(** In particular equal addresses are the same address, and integers are equal exactly when they are the same number. *)
Theorem C10_ip_and_integers : forall P, 
  (forall x y, field_eqb P (IP x) (IP y) = true <-> x = y) /\
  (forall m n, field_eqb P (U64 m) (U64 n) = true <-> m = n) /\
  (forall y z, field_eqb P (I64 y) (I64 z) = true <-> y = z) /\
  (forall n z, field_eqb P (U64 n) (I64 z) = true <-> z = Z.of_N n) /\
  (forall n z, field_eqb P (I64 z) (U64 n) = true <-> z = Z.of_N n).
Proof. exact ints_eq. Qed.
Print Assumptions C10_ip_and_integers.
(** The whole relation, for every pair of fields: names (domains, users, assets, addresses) and texts are compared as they
    are displayed, and so are the other kinds among themselves and a text with anything; a field of another kind equals every
    text on its right and no name; a name equals none of the other kinds. *)
Inductive group := GText | GName | GOther.
Definition group_of (f : field) : group :=
  match f with Text _ => GText | Domain _ | User _ | AssetID _ | IP _ => GName | _ => GOther end.
Theorem C10_exact : forall P a b, field_ok a -> field_ok b ->
  (field_eqb P a b = true <->
   match group_of a, group_of b with
   | GText, _ | GName, GText | GName, GName | GOther, GOther => display P a = display P b
   | GOther, GText => True
   | GOther, GName | GName, GOther => False
   end).
Proof.
  intros P a b Ka Kb.
  destruct (group_of a) eqn:Ga, (group_of b) eqn:Gb;
    try (apply C10_textual_equality; auto; [destruct a|destruct b]; try discriminate; eauto using textual; fail);
    destruct a; try discriminate Ga; destruct b; try discriminate Gb; cbn [field_eqb]; rewrite ?String.eqb_eq; try tauto;
    try (split; [discriminate|tauto]); cbn [display]; try (split; auto; fail).
Qed.
Print Assumptions C10_exact.
Example C10_nonvacuous : forall P, field_ok (IP (V4 0)) /\ field_eqb P (Domain "0.0.0.0") (IP (V4 0)) = true /\ textual (User "u") "u".
Proof. intros P. split; [vm_compute; reflexivity|split; [vm_compute; reflexivity|constructor]]. Qed.

(** C100. Full property: equal fields feed the same bytes to the hasher. *)
Theorem C100_equal_hash_refuted : forall P, 
  (field_eqb P (Text "0.0.0.1") (IP (V4 1)) = true /\ field_eqb P (IP (V4 1)) (Text "0.0.0.1") = true /\
   hash_field (Text "0.0.0.1") <> hash_field (IP (V4 1))) /\
  (field_eqb P (Text "123") (U64 123) = true /\ hash_field (Text "123") <> hash_field (U64 123)) /\
  (field_eqb P (Array ["a,b"]) (Array ["a"; "b"]) = true /\ hash_field (Array ["a,b"]) <> hash_field (Array ["a"; "b"])).
Proof.
  intros P. repeat split; try (vm_compute; reflexivity); vm_compute; discriminate.
Qed.
Print Assumptions C100_equal_hash_refuted.
Theorem C11_equal_hash : forall P a b, field_ok a -> field_ok b -> field_eqb P a b = true ->
  ((exists s t, textual a s /\ textual b t) \/
   ((exists z, a = I64 z \/ exists n, a = U64 n) /\ (exists z, b = I64 z \/ exists n, b = U64 n)) \/
   (exists x y, a = IP x /\ b = IP y)) ->
  hash_field a = hash_field b.
Proof. exact hash_same_kind. Qed.
Print Assumptions C11_equal_hash.
(** What is hashed: a text as its bytes and a byte that no UTF-8 text has; numbers, dates and addresses as all the bytes of
    their machine representation, the lowest first; of a list of texts the length and each text. *)
Definition bytes_of_number (k : nat) (n : N) (bs : list N) : Prop :=
  length bs = k /\ Forall (fun b => b < 256) bs /\ be_value 256 (rev bs) = n.
Lemma be_value_app r a b : be_value r (a ++ b) = be_value r a * r ^ N.of_nat (length b) + be_value r b.
Proof.
  unfold be_value. rewrite fold_left_app. generalize (fold_left (fun acc d => acc * r + d) a 0) as n. induction b as [|d b IH]; intros n; cbn [fold_left length].
  - cbn. lia.
  - rewrite IH, (IH (0 * r + d)). rewrite Nnat.Nat2N.inj_succ, N.pow_succ_r'. lia.
Qed.
Lemma le_bytes_number k n : n < 256 ^ N.of_nat k -> bytes_of_number k n (le_bytes k n).
Proof.
  revert n. induction k as [|k IH]; intros n H; cbn [le_bytes].
  - cbn in H. split; [reflexivity|]. split; [constructor|]. cbn. lia.
  - rewrite Nnat.Nat2N.inj_succ, N.pow_succ_r' in H. destruct (IH (n / 256)) as (L & F & V); [apply N.div_lt_upper_bound; lia|].
    split; [cbn; lia|]. split; [constructor; [apply N.mod_lt; lia | exact F]|].
    cbn [rev]. rewrite be_value_app, V. cbn [length N.of_nat]. change (256 ^ N.of_nat 1) with 256. unfold be_value at 1. cbn [fold_left].
    rewrite N.mul_comm, N.add_0_l. symmetry. apply N.div_mod. lia.
Qed.
Theorem C11_hashed : forall f, field_ok f ->
  match f with
  | Text s | Domain s | User s | AssetID s => hash_field f = (str_bytes s ++ [255])%list
  | IP (V4 n) => bytes_of_number 4 n (hash_field f)
  | IP (V6 n) => bytes_of_number 16 n (hash_field f)
  | U64 n => bytes_of_number 8 n (hash_field f)
  | I64 z | Date z => exists n, bytes_of_number 8 n (hash_field f) /\ (Z.of_N n mod 2 ^ 64 = z mod 2 ^ 64)%Z
  | F64 x => exists n, bytes_of_number 8 n (hash_field f) /\ n = f64_as_u64 x
  | Array l => N.of_nat (length l) < 2 ^ 64 -> exists b, bytes_of_number 8 (N.of_nat (length l)) b
      /\ hash_field f = (b ++ concat (map (fun s => str_bytes s ++ [255]) l))%list
  | Null | Path _ => hash_field f = []
  end.
Proof.
  assert (P : forall n, n < 2 ^ 64 -> bytes_of_number 8 n (le_bytes 8 n)) by (intros n H; apply le_bytes_number; exact H).
  assert (Q : forall z, exists n, bytes_of_number 8 n (le_bytes 8 (wrap_u64 z)) /\ (Z.of_N n mod 2 ^ 64 = z mod 2 ^ 64)%Z).
  { intros z. pose proof (Z.mod_pos_bound z (2 ^ 64) ltac:(lia)) as B. exists (wrap_u64 z). unfold wrap_u64. split; [apply P; lia|].
    rewrite Z2N.id by lia. apply Z.mod_mod. lia. }
  intros f K. destruct f; try reflexivity; cbn [hash_field]; try apply Q.
  - destruct ip as [n|n]; cbn in K; apply le_bytes_number; exact K.
  - apply P, K.
  - exists (f64_as_u64 f). split; [|reflexivity]. apply P. destruct f as [s|[]| |[] m e]; cbn [f64_as_u64]; try lia.
  - intros H. exists (le_bytes 8 (N.of_nat (length l))). split; [apply P, H | reflexivity].
Qed.
Print Assumptions C11_hashed.
Example C11_nonvacuous : forall P, field_ok (U64 7) /\ field_ok (I64 7) /\ field_eqb P (U64 7) (I64 7) = true.
Proof. intros P. repeat split; vm_compute; congruence. Qed.

(** C101. Full property: [contains_str f p = true <-> textual f s /\ substring_of p s]. *)
Theorem C101_asset_contains_refuted : forall a p, contains_str (AssetID a) p = true.
Proof. exact contains_str_asset. Qed.
Print Assumptions C101_asset_contains_refuted.
Theorem C12_contains : forall f p, (forall a, f <> AssetID a) ->
  (contains_str f p = true <-> exists s, textual f s /\ substring_of p s).
Proof. exact contains_str_iff. Qed.
Print Assumptions C12_contains.
Theorem C12_contains_field : forall f g, (forall a, f <> AssetID a) ->
  (contains f g = true <-> exists s t, textual f s /\ textual g t /\ substring_of t s).
Proof. exact contains_iff. Qed.
Print Assumptions C12_contains_field.
Theorem C12_case_insensitive : forall f g,
  (eq_ignore_ascii_case f g = true <-> exists s t, textual f s /\ textual g t /\ to_lower s = to_lower t).
Proof.
  intros f g. split.
  - intros E. assert (X : exists s, textual f s) by (destruct f; try discriminate E; eexists; constructor). destruct X as [s X].
    exists s. destruct (proj1 (eqic_iff f g s X) E) as (t & Ht). exists t. tauto.
  - intros (s & t & X & Y). apply (eqic_iff f g s X). exists t. exact Y.
Qed.
Print Assumptions C12_case_insensitive.
Theorem C12_case_insensitive_str : forall f t,
  (eq_ignore_ascii_case_str f t = true <-> exists s, textual f s /\ to_lower s = to_lower t).
Proof.
  intros f t. unfold eq_ignore_ascii_case_str. split.
  - intros E. destruct f; try discriminate E; apply String.eqb_eq in E; eexists; (split; [constructor|symmetry; exact E]).
  - intros (s & X & E). destruct X; apply String.eqb_eq; symmetry; exact E.
Qed.
Print Assumptions C12_case_insensitive_str.
Example C12_nonvacuous : contains_str (User "contoso|bob") "|bo" = true /\ substring_of "|bo" "contoso|bob".
Proof. split; [vm_compute; reflexivity|exists "contoso", "b"; reflexivity]. Qed.

(** C102. Full property: a numeric conversion fails or returns the number the field denotes. *)
Theorem C102_number_changed_refuted :
  to_u64 (I64 (-1)) = Ok 18446744073709551615 /\ to_i64 (U64 9223372036854775808) = Ok (-9223372036854775808)%Z /\
  to_f64 (U64 9007199254740993) = to_f64 (U64 9007199254740992).
Proof. repeat split; vm_compute; reflexivity. Qed.
Print Assumptions C102_number_changed_refuted.
Theorem C13_to_u64 : forall f z, field_ok f -> integer_field f z -> (0 <= z)%Z -> to_u64 f = Ok (Z.to_N z).
Proof. exact to_u64_int. Qed.
Print Assumptions C13_to_u64.
Theorem C13_to_i64 : forall f z, field_ok f -> integer_field f z -> (z < 2 ^ 63)%Z -> to_i64 f = Ok z.
Proof. exact to_i64_int. Qed.
Print Assumptions C13_to_i64.
Theorem C13_to_f64 : forall f z, integer_field f z -> (- 2 ^ 53 < z < 2 ^ 53)%Z -> exists x, to_f64 f = Ok x /\ float_is x z.
Proof. exact to_f64_int. Qed.
Print Assumptions C13_to_f64.
(** Any integer: the nearest [f64], of two equally near ones the even one; exact when the number is an [f64]. *)
Theorem C13_to_f64_nearest : forall f z, field_ok f -> integer_field f z ->
  exists x r, to_f64 f = Ok x /\ float_is x r /\ nearest_double z r.
Proof. exact to_f64_nearest. Qed.
Print Assumptions C13_to_f64_nearest.
Example C13_nearest_case : to_f64 (U64 9007199254740993) = to_f64 (U64 9007199254740992) /\
  to_f64 (U64 9007199254740995) = to_f64 (U64 9007199254740996) /\ ~ double 9007199254740993.
Proof.
  split; [vm_compute; reflexivity|]. split; [vm_compute; reflexivity|]. intros (m & e & M & [E _] & H).
  destruct (Z.eq_dec e 0) as [->|NE]; [change (2 ^ 0)%Z with 1%Z in H; lia|]. replace e with (1 + (e - 1))%Z in H by lia.
  rewrite Z.pow_add_r in H by lia. change (2 ^ 1)%Z with 2%Z in H. assert (9007199254740993 = 2 * (m * 2 ^ (e - 1)))%Z by lia. lia.
Qed.
(** Out of range an integer keeps its 64 bits, a float saturates, NaN is 0. *)
Theorem C13_wraps : forall f z, field_ok f -> integer_field f z ->
  (exists n, to_u64 f = Ok n /\ u64_ok n /\ same_bits z (Z.of_N n)) /\ (exists i, to_i64 f = Ok i /\ i64_ok i /\ same_bits z i).
Proof. exact wrap_ints. Qed.
Print Assumptions C13_wraps.
Theorem C13_saturates : forall x z, truncates x z ->
  (exists n, to_u64 (F64 x) = Ok n /\ saturates 0 (2 ^ 64 - 1) z (Z.of_N n)) /\
  (exists i, to_i64 (F64 x) = Ok i /\ saturates (- 2 ^ 63) (2 ^ 63 - 1) z i).
Proof. exact float_saturates. Qed.
Print Assumptions C13_saturates.
Theorem C13_special_floats :
  to_u64 (F64 S754_nan) = Ok 0 /\ to_i64 (F64 S754_nan) = Ok 0%Z /\
  to_u64 (F64 (S754_infinity false)) = Ok (2 ^ 64 - 1) /\ to_i64 (F64 (S754_infinity false)) = Ok (2 ^ 63 - 1)%Z /\
  to_u64 (F64 (S754_infinity true)) = Ok 0 /\ to_i64 (F64 (S754_infinity true)) = Ok (- 2 ^ 63)%Z /\
  (forall s m e, exists z, truncates (S754_finite s m e) z) /\ (forall x, to_f64 (F64 x) = Ok x).
Proof. splits; try (vm_compute; reflexivity). all: first [exact truncates_ex|reflexivity]. Qed.
Print Assumptions C13_special_floats.
Theorem C13_float_truncation : forall x z, truncates x z ->
  ((- 2 ^ 63 <= z < 2 ^ 63)%Z -> to_i64 (F64 x) = Ok z) /\ ((0 <= z < 2 ^ 64)%Z -> to_u64 (F64 x) = Ok (Z.to_N z)).
Proof. exact (fun x z T => conj (f64_trunc_i64 x z T) (f64_trunc_u64 x z T)). Qed.
Print Assumptions C13_float_truncation.
Theorem C13_int_float_int : forall z, (- 2 ^ 53 < z < 2 ^ 53)%Z -> exists x, to_f64 (I64 z) = Ok x /\ to_i64 (F64 x) = Ok z.
Proof. exact int_float_int. Qed.
Print Assumptions C13_int_float_int.
(** Non-numeric fields are refused, textual ones give their text. *)
Theorem C13_text : forall f s, (to_str f = Ok s <-> textual f s) /\ (to_logstring f = Ok s <-> textual f s).
Proof. exact (fun f s => conj (to_str_iff f s) (to_logstring_iff f s)). Qed.
Print Assumptions C13_text.
Theorem C13_non_numeric_refused : forall f, (forall z, ~ integer_field f z) -> (forall x, f <> F64 x) ->
  to_u64 f = Err "Invalid type" /\ to_i64 f = Err "Invalid type" /\ to_f64 f = Err "Invalid type".
Proof. exact non_numeric. Qed.
Print Assumptions C13_non_numeric_refused.
(** Printed integers read back. *)
Theorem C13_print_parse : forall P, (forall n, u64_ok n -> parse_u64 (display P (U64 n)) = Some n) /\
  (forall z, i64_ok z -> parse_i64 (display P (I64 z)) = Some z).
Proof. exact (fun P => conj parse_u64_dec parse_i64_dec_z). Qed.
Print Assumptions C13_print_parse.
Theorem C13_to_ip : forall f a, to_ip f = Val (Ok a) <-> f = IP a \/ exists s, f = Text s /\ from_ip_str s = Val (Ok a).
Proof. exact to_ip_iff. Qed.
Print Assumptions C13_to_ip.
Theorem C13_to_ip_total : forall f, field_ok f -> exists r, to_ip f = Val r /\ forall a, r = Ok a -> ip_ok a.
Proof. exact to_ip_total. Qed.
Print Assumptions C13_to_ip_total.
(** Every field converts to an array: an array to itself, the others to the one text that stands for them. *)
Theorem C13_to_array : forall P f,
  (forall l, f = Array l -> to_array P f = Ok l) /\
  (forall s, textual f s \/ f = Path s -> to_array P f = Ok [s]) /\
  (forall z, field_ok f -> integer_field f z -> exists t, to_array P f = Ok [t] /\ ((z < 2 ^ 63)%Z -> parse_i64 t = Some z) /\ ((0 <= z)%Z -> parse_u64 t = Some (Z.to_N z))) /\
  (forall a, f = IP a -> to_array P f = Ok [ip_to_string a]) /\
  (forall x, f = F64 x -> to_array P f = Ok [f64_str P x]) /\
  (f = Null -> to_array P f = Ok [""]).
Proof. intros P f. destruct (to_array_ok P f) as (A & B & C & D & E). splits; auto. intros ->. reflexivity. Qed.
Print Assumptions C13_to_array.
(** How a field is shown: a text as itself, an array as its elements between brackets with commas between them, an address and the
    numbers as their text, and nothing at all for a null or a path. *)
Theorem C13_display : forall P,
  (forall f s, textual f s -> display P f = s) /\
  (forall a, display P (IP a) = ip_to_string a) /\
  (forall x, display P (F64 x) = f64_str P x) /\
  display P (Array []) = "[]" /\
  (forall x l, display P (Array (x :: l)) = ("[" ++ fold_left (fun t y => t ++ "," ++ y) l x ++ "]")%string) /\
  (forall p, display P Null = "" /\ display P (Path p) = "").
Proof.
  intros P. splits; try reflexivity.
  - intros f s H. destruct H; reflexivity.
  - intros x l. cbn [display]. do 2 f_equal. unfold join_comma.
    assert (X : forall l x, join "," (x :: l) = fold_left (fun t y => t ++ "," ++ y)%string l x).
    { clear. intros l. enough (G : forall p x, (p ++ join "," (x :: l))%string = fold_left (fun t y => t ++ "," ++ y)%string l (p ++ x)%string)
        by (intros x; exact (G "" x)).
      induction l as [|y l IH]; intros p x; [reflexivity|]. cbn [fold_left]. rewrite !(str_app_assoc p x). rewrite <- (str_app_assoc x).
      rewrite <- (str_app_assoc p). rewrite <- IH. cbn [join]. rewrite !str_app_assoc. reflexivity. }
    apply X.
  - split; reflexivity.
Qed.
Print Assumptions C13_display.
(** The borrowing conversions accept exactly one kind; the kind tests. *)
Theorem C13_kinds : forall f,
  (forall s, to_logstring_ref f = Ok s <-> f = Text s) /\
  (forall l, to_array_ref f = Ok l <-> f = Array l) /\
  (is_numeric f = true <-> exists n z x, f = U64 n \/ f = I64 z \/ f = F64 x) /\
  (is_text f = true <-> exists s l, textual f s \/ f = Path s \/ f = Array l).
Proof. exact field_kinds. Qed.
Print Assumptions C13_kinds.
Example C13_nonvacuous : integer_field (Date 1700000000000) 1700000000000 /\ field_ok (Date 1700000000000) /\
  truncates (S754_finite true 7 (-1)) (-3) /\ to_i64 (F64 (S754_finite true 7 (-1))) = Ok (-3)%Z.
Proof.
  split; [constructor|]. split; [split; vm_compute; congruence|]. split; [|vm_compute; reflexivity].
  split; [vm_compute; discriminate|]. right. split; [reflexivity|]. split; [vm_compute; discriminate|vm_compute; reflexivity].
Qed.

(** C177: user identifiers.  Full property: an identifier made from a name and a domain tells both.  It does, unless a
    domain has a bar (C178). *)
Lemma first_bar (d d' n n' : string) : ~ In "|"%char (list_ascii_of_string d) -> ~ In "|"%char (list_ascii_of_string d') ->
  d ++ "|" ++ n = d' ++ "|" ++ n' -> d = d' /\ n = n'.
Proof.
  revert d'. induction d as [|c d IH]; intros [|c' d'] H H' E; cbn in E, H, H'; injection E; intros; subst.
  - split; reflexivity.
  - exfalso. tauto.
  - exfalso. tauto.
  - destruct (IH d') as [-> ->]; auto.
Qed.
Theorem C177_user_id : forall name domain,
  generate_user_id name domain = domain ++ "|" ++ name /\
  forall name' domain', ~ In "|"%char (list_ascii_of_string domain) -> ~ In "|"%char (list_ascii_of_string domain') ->
    (generate_user_id name domain = generate_user_id name' domain' <-> name = name' /\ domain = domain').
Proof.
  intros n d. split; [reflexivity|]. intros n' d' H H'. unfold generate_user_id. split.
  - intros E. destruct (first_bar _ _ _ _ H H' E). auto.
  - intros [-> ->]. reflexivity.
Qed.
Print Assumptions C177_user_id.
Theorem C178_user_id_distinct_refuted : ~ (forall n d n' d', generate_user_id n d = generate_user_id n' d' -> n = n' /\ d = d') /\
  forall n d x, generate_user_id n (d ++ "|" ++ x) = generate_user_id (x ++ "|" ++ n) d.
Proof.
  split; [intros H; destruct (H "n" "a|b" "b|n" "a" eq_refl) as [E _]; discriminate E|].
  intros n d x. unfold generate_user_id. rewrite !str_app_assoc. reflexivity.
Qed.
Print Assumptions C178_user_id_distinct_refuted.
Example C177_case : ~ In "|"%char (list_ascii_of_string "CORP") /\ generate_user_id "o|neil" "CORP" = "CORP|o|neil".
Proof. split; [cbn; intuition discriminate | reflexivity]. Qed.
