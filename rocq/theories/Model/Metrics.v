(** Model of src/components/metrics: counter.rs, gauge.rs, histogram.rs, mod.rs.
    The serde [Serialize] impls are in Model/JsonMore.v. Not modelled: summary.rs (private, unused), write errors of the
    [fmt::Write] sink (a [String] never fails). *)
From Coq Require Import String Ascii NArith ZArith List Bool Floats.SpecFloat.
From Verif Require Import Base.Str Base.Regex Base.Outcome Model.Field.
Import ListNotations.
Local Open Scope string_scope.

Definition labels := list (string * string).

(** * Atomic cells. [Arc<AtomicI64>] shared by every clone of a metric: one [Z] per series.
    Each access is one atomic action ([fetch_add], [fetch_sub], [store]; all accesses of a series go to
    one location, so its modification order is the interleaving whatever the [Ordering]). *)
Inductive act := AAdd (i : nat) (v : Z) | AStore (i : nat) (v : Z).
Fixpoint upd {A} (i : nat) (f : A -> A) (l : list A) : list A :=
  match l, i with
  | [], _ => []
  | x :: r, O => f x :: r
  | x :: r, S j => x :: upd j f r
  end.
(** [fetch_add] wraps around *)
Definition act_step (m : list Z) (a : act) : list Z :=
  match a with
  | AAdd i v => upd i (fun x => wrap_i64 (x + v)) m
  | AStore i v => upd i (fun _ => v) m
  end.
Definition act_run (m : list Z) (tr : list act) : list Z := fold_left act_step tr m.

(** * counter.rs *)
(** counter.rs:94-106 [Counter::new_with_labels]: the labels, or a panic *)
Fixpoint counter_labels (ls : labels) : outcome labels :=
  match ls with
  | [] => Val []
  | (n, v) :: r =>
      if str_has "010" n || str_has "010" v then Panic
      else let! r' := counter_labels r in Val ((n, v) :: r')
  end.
(** counter.rs:11-18: a vec is its series' labels, and their cells *)
Record mvec := mkVec { mv_labels : list labels; mv_cells : list Z }.
(** counter.rs:32-39 *)
Fixpoint counter_vec_labels (lss : list labels) : outcome (list labels) :=
  match lss with
  | [] => Val []
  | ls :: r => let! l := counter_labels ls in let! r' := counter_vec_labels r in Val (l :: r')
  end.
Definition counter_vec_new (lss : list labels) : outcome mvec :=
  let! l := counter_vec_labels lss in Val (mkVec l (map (fun _ => 0%Z) l)).
(** The inner loop of counter.rs:57-61, gauge.rs:59-63 and histogram.rs:100-104: [iter().zip()] *)
Fixpoint zip_same (a b : labels) : bool :=
  match a, b with
  | (n1, v1) :: a, (n2, v2) :: b =>
      if negb (String.eqb n1 n2) || negb (String.eqb v1 v2) then false else zip_same a b
  | _, _ => true
  end.
(** counter.rs:52-65, gauge.rs:54-67, histogram.rs:95-108 [with_labels]: a reference to the series, here its position *)
Fixpoint with_labels_from (i : nat) (ms : list labels) (ls : labels) : option nat :=
  match ms with
  | [] => None
  | m :: r =>
      if negb (Nat.eqb (length m) (length ls)) then with_labels_from (S i) r ls
      else if zip_same m ls then Some i
      else with_labels_from (S i) r ls
  end.
Definition with_labels (ms : list labels) (ls : labels) : option nat := with_labels_from 0 ms ls.

(** The calls a thread can make on a counter vec of [n] series ([i]: the series the handle refers to). *)
Inductive ccall :=
| CInc (i : nat)              (* counter.rs:108-110 *)
| CIncBy (i : nat) (v : Z)    (* counter.rs:112-115 *)
| CReset (i : nat)            (* counter.rs:121-123 *)
| CResetAll.                  (* counter.rs:67-71 *)
Definition ccall_acts (n : nat) (c : ccall) : list act :=
  match c with
  | CInc i => [AAdd i 1]
  | CIncBy i v => [AAdd i v]
  | CReset i => [AStore i 0]
  | CResetAll => map (fun i => AStore i 0) (seq 0 n)
  end.
(** counter.rs:117-119 *)
Definition counter_get (m : list Z) (i : nat) : Z := nth i m 0%Z.

(** The label block of counter.rs:161-174, gauge.rs:177-190, histogram.rs:204-217 and 223-236:
    [i] counts the labels seen, [len] is their number *)
Fixpoint enc_labels (i len : nat) (ls : labels) : string :=
  match ls with
  | [] => ""
  | (n, v) :: r =>
      if String.eqb v "" then enc_labels (S i) len r
      else n ++ "=""" ++ v ++ """" ++ (if Nat.eqb (S i) len then "" else ",") ++ enc_labels (S i) len r
  end.
Definition label_block (ls : labels) : string := "{" ++ enc_labels 0 (length ls) ls ++ "} ".
Definition nl : string := String "010" "".
(** counter.rs:151-180 *)
Definition enc_counter (name : string) (ls : labels) (v : Z) : string :=
  name ++ label_block ls ++ dec_z v ++ nl.
(** The header of counter.rs:134-143, gauge.rs:150-159, histogram.rs:152-161 *)
Definition enc_header (name description kind : string) (help : bool) : string :=
  (if help then "# HELP " ++ name ++ " " ++ description ++ nl else "") ++ "# TYPE " ++ name ++ " " ++ kind ++ nl.
Definition concat_str (l : list string) : string := fold_right append "" l.
(** counter.rs:126-149 *)
Definition enc_counter_vec (name description : string) (help : bool) (m : mvec) : string :=
  enc_header name description "counter" help ++
  concat_str (map (fun p => enc_counter name (fst p) (snd p)) (combine (mv_labels m) (mv_cells m))).

(** * gauge.rs *)
(** gauge.rs:20, histogram.rs:16 *)
Definition modifier : Z := 100000.
Definition f64_mul : f64 -> f64 -> f64 := SFmul 53 1024.
Definition f64_div : f64 -> f64 -> f64 := SFdiv 53 1024.
(** gauge.rs:135-137, histogram.rs:74-76 *)
Definition normalize_f64 (x : f64) : Z := f64_as_i64 (f64_mul x (int_as_f64 modifier)).
(** gauge.rs:138-140, histogram.rs:77-79 *)
Definition normalize_i64 (z : Z) : f64 := f64_div (int_as_f64 z) (int_as_f64 modifier).
(** gauge.rs:34-41: unlike counters nothing is refused *)
Definition gauge_vec_new (lss : list labels) : mvec := mkVec lss (map (fun _ => 0%Z) lss).
Definition f64_one : f64 := int_as_f64 1.
Inductive gcall :=
| GInc (i : nat)               (* gauge.rs:109-111 *)
| GDec (i : nat)               (* gauge.rs:112-114 *)
| GIncBy (i : nat) (v : f64)   (* gauge.rs:115-118 *)
| GSet (i : nat) (v : f64)     (* gauge.rs:119-122 *)
| GDecBy (i : nat) (v : f64)   (* gauge.rs:123-126 *)
| GReset (i : nat)             (* gauge.rs:130-132 *)
| GResetAll.                   (* gauge.rs:69-73 *)
(** [fetch_sub(v)] wraps: adding [- v] *)
Definition gcall_acts (n : nat) (c : gcall) : list act :=
  match c with
  | GInc i => [AAdd i (normalize_f64 f64_one)]
  | GDec i => [AAdd i (- normalize_f64 f64_one)]
  | GIncBy i v => [AAdd i (normalize_f64 v)]
  | GSet i v => [AStore i (normalize_f64 v)]
  | GDecBy i v => [AAdd i (- normalize_f64 v)]
  | GReset i => [AStore i 0]
  | GResetAll => map (fun i => AStore i 0) (seq 0 n)
  end.
(** gauge.rs:127-129 *)
Definition gauge_get (m : list Z) (i : nat) : f64 := normalize_i64 (nth i m 0%Z).
(** gauge.rs:167-196 *)
Definition enc_gauge (P : printers) (name : string) (ls : labels) (v : f64) : string :=
  name ++ label_block ls ++ f64_str P v ++ nl.
(** gauge.rs:142-165 *)
Definition enc_gauge_vec (P : printers) (name description : string) (help : bool) (m : mvec) : string :=
  enc_header name description "gauge" help ++
  concat_str (map (fun p => enc_gauge P name (fst p) (normalize_i64 (snd p))) (combine (mv_labels m) (mv_cells m))).

(** * histogram.rs *)
(** histogram.rs:23-40; the bounds never change *)
Record hist := mkH { h_sum : Z; h_count : N; h_buckets : list (f64 * N) }.
(** histogram.rs:117-124 and 51-55 [with_le] *)
Definition hist_new (le : list f64) : hist := mkH 0 0 (map (fun b => (b, 0%N)) le).
(** histogram.rs:13-14 [BASIC_LE_CALCULATOR], the floats of 0.001, 0.005, 0.01, 0.05, 0.1, 0.5, 1, 2, 5 and 10 *)
Definition basic_le : list f64 :=
  [S754_finite false 4611686018427388 (-62); S754_finite false 5764607523034235 (-60); S754_finite false 5764607523034235 (-59);
   S754_finite false 7205759403792794 (-57); S754_finite false 7205759403792794 (-56); S754_finite false 4503599627370496 (-53);
   S754_finite false 4503599627370496 (-52); S754_finite false 4503599627370496 (-51); S754_finite false 5629499534213120 (-50);
   S754_finite false 5629499534213120 (-49)].
(** histogram.rs:84-92 *)
Definition hist_vec_with_le (lss : list labels) (le : list f64) : list (labels * hist) := map (fun ls => (ls, hist_new le)) lss.
(** histogram.rs:82-84 *)
Definition hist_vec_new (lss : list labels) : list (labels * hist) := hist_vec_with_le lss basic_le.
(** The atomic actions on one histogram. *)
Inductive hact := HCount | HSum (v : Z) | HBucket (k : nat).
Definition wrap_add_u64 (a b : N) : N := ((a + b) mod 2 ^ 64)%N.
Definition hact_step (h : hist) (a : hact) : hist :=
  match a with
  | HCount => mkH (h_sum h) (wrap_add_u64 (h_count h) 1) (h_buckets h)
  | HSum v => mkH (wrap_i64 (h_sum h + v)) (h_count h) (h_buckets h)
  | HBucket k => mkH (h_sum h) (h_count h) (upd k (fun p => (fst p, wrap_add_u64 (snd p) 1)) (h_buckets h))
  end.
Definition hact_run (h : hist) (tr : list hact) : hist := fold_left hact_step tr h.
(** Several series: each action goes to the cells of one of them ([Arc]s of their own). *)
Definition hvec_run (m : list (labels * hist)) (tr : list (nat * hact)) : list (labels * hist) :=
  fold_left (fun m a => upd (fst a) (fun p => (fst p, hact_step (snd p) (snd a))) m) tr m.
(** Rust's [a > b] and [a >= b] on [f64]: false when one is NaN *)
Definition f64_gt (a b : f64) : bool := SFltb b a.
Definition f64_ge (a b : f64) : bool := SFleb b a.
(** histogram.rs:56-63: the buckets one observation increments, in order *)
Fixpoint bucket_acts (k : nat) (le : list f64) (v : f64) : list hact :=
  match le with
  | [] => []
  | b :: r => (if f64_gt v b then [] else [HBucket k]) ++ bucket_acts (S k) r v
  end.
(** histogram.rs:126-130 *)
Definition observe_acts (le : list f64) (v : f64) : list hact :=
  HCount :: HSum (normalize_f64 v) :: bucket_acts 0 le v.
(** the same through a handle of series [i] *)
Definition hcall_acts (le : list f64) (c : nat * f64) : list (nat * hact) := map (pair (fst c)) (observe_acts le (snd c)).
(** histogram.rs:64-71 *)
Fixpoint get_count_in (bs : list (f64 * N)) (le : f64) : option N :=
  match bs with
  | [] => None
  | (b, n) :: r => if f64_ge le b then Some n else get_count_in r le
  end.
Definition get_count (h : hist) (le : f64) : option N := get_count_in (h_buckets h) le.
(** histogram.rs:132-138 *)
Definition get_sample_count (h : hist) : N := h_count h.
Definition get_sample_sum (h : hist) : f64 := normalize_i64 (h_sum h).

(** The labels of a bucket line, histogram.rs:184-192 *)
Fixpoint enc_bucket_labels (ls : labels) : string :=
  match ls with
  | [] => ""
  | (n, v) :: r => if String.eqb v "" then enc_bucket_labels r
                   else n ++ "=""" ++ v ++ """," ++ enc_bucket_labels r
  end.
(** histogram.rs:181-201 *)
Definition enc_bucket (P : printers) (name : string) (ls : labels) (b : f64 * N) : string :=
  name ++ "_bucket{" ++ enc_bucket_labels ls ++ "le=" ++ f64_str P (fst b) ++ "} " ++ dec (snd b) ++ nl.
(** histogram.rs:169-242 *)
Definition enc_hist (P : printers) (name : string) (ls : labels) (h : hist) : string :=
  if N.eqb (h_count h) 0 then ""
  else concat_str (map (enc_bucket P name ls) (h_buckets h)) ++
       name ++ "_sum" ++ label_block ls ++ f64_str P (get_sample_sum h) ++ nl ++
       name ++ "_count" ++ label_block ls ++ dec (h_count h) ++ nl.
(** histogram.rs:141-167; the kind is followed by a blank *)
Definition enc_hist_vec (P : printers) (name description : string) (help : bool) (ms : list (labels * hist)) : string :=
  match ms with
  | [] => ""
  | _ => enc_header name description "histogram " help ++
         concat_str (map (fun p => enc_hist P name (fst p) (snd p)) ms)
  end.

(** * mod.rs *)
Definition in_range (lo hi : N) (a : ascii) : bool := N.leb lo (N_of_ascii a) && N.leb (N_of_ascii a) hi.
(** [a-z] *)
Definition cls_az : ascii -> bool := in_range 97 122.
(** [a-z0-9_] *)
Definition cls_azn (a : ascii) : bool := in_range 97 122 a || in_range 48 57 a || Ascii.eqb a "_".
(** metrics/mod.rs:129-137: [^[a-z][a-z0-9_]+[a-z]$] *)
Definition valid_name (s : string) : bool :=
  re_full (RCat (RSet cls_az) (RCat (RPlus (RSet cls_azn)) (RSet cls_az))) s.
(** The ASCII part of [\w] and of [\s]. Outside ASCII the crate consults Unicode tables: not modelled, the
    model refuses every non-ASCII description. *)
Definition cls_w (a : ascii) : bool :=
  in_range 97 122 a || in_range 65 90 a || in_range 48 57 a || Ascii.eqb a "_".
Definition cls_s (a : ascii) : bool := in_range 9 13 a || in_range 32 32 a.
(** metrics/mod.rs:138-146: [^[\w\s]+$] *)
Definition valid_description (s : string) : bool :=
  re_full (RPlus (RSet (fun a => cls_w a || cls_s a))) s.

(** metrics/mod.rs:18-26: the names of the predefined metrics *)
Definition predefined_metrics : list string :=
  ["connected_agents"; "processing_logs_input"; "processing_logs_parser"; "logs_parsing_time"; "processing_logs_enchancer";
   "processing_logs_indexer"; "logs_indexing_time"; "processed_bytes_input"; "processed_bytes_indexer"].
(** metrics/mod.rs:55-59 *)
Inductive metric := MCounter (m : mvec) | MGauge (m : mvec) | MHistogram (ms : list (labels * hist)).
(** metrics/mod.rs:44-48 *)
Record metric_def := mkDef { d_name : string; d_description : string; d_metric : metric }.
(** metrics/mod.rs:62-86; an error is kept as its text *)
Definition metric_def_new (name description : string) (m : metric) : result metric_def string :=
  if negb (valid_name name) then Err ("Invalid Metric name " ++ name)
  else if negb (valid_description description) then Err ("Invalid Metric description " ++ description)
  else Ok (mkDef name description m).
(** metrics/mod.rs:193-202, 234-243, 275-284: both the owned and the borrowed form; a clone shares the cells *)
Definition of_gauge (v : mvec) : metric := MGauge v.
Definition of_counter (v : mvec) : metric := MCounter v.
Definition of_histogram (v : list (labels * hist)) : metric := MHistogram v.
(** metrics/mod.rs:203-232 *)
Definition to_gauge (m : metric) : result mvec string :=
  match m with
  | MCounter _ => Err "Cannot transform Counter to Gauge Metric"
  | MGauge v => Ok v
  | MHistogram _ => Err "Cannot transform Histogram to Gauge Metric"
  end.
(** metrics/mod.rs:244-273 *)
Definition to_counter (m : metric) : result mvec string :=
  match m with
  | MCounter v => Ok v
  | MGauge _ => Err "Cannot transform Gauge to Counter Metric"
  | MHistogram _ => Err "Cannot transform Histogram to Counter Metric"
  end.
(** metrics/mod.rs:285-314 *)
Definition to_histogram (m : metric) : result (list (labels * hist)) string :=
  match m with
  | MCounter _ => Err "Cannot transform Counter to Histogram Metric"
  | MGauge _ => Err "Cannot transform Gauge to Histogram Metric"
  | MHistogram v => Ok v
  end.

(** metrics/mod.rs:149-191 [label_combinations]. The number of combinations is a [usize] in the code; here it is unbounded,
    which differs from 2^64 combinations on. *)
(** The loop [for counter_ii in (0..ii).rev()] of metrics/mod.rs:179-184, with [ln] the size of the current label. *)
Fixpoint carry (ii ln : nat) (cs : list nat) : list nat :=
  match ii with
  | O => cs
  | S k =>
      let cs' := if Nat.leb ln (nth (S k) cs 0) then upd (S k) (fun _ => 0) (upd k S cs) else cs in
      carry k ln cs'
  end.
(** One pass of metrics/mod.rs:168-188 over the labels from number [i] on: the row and the counters afterwards.
    [counter % ln] with [ln = 0] would panic, but then there is no pass at all. *)
Fixpoint combo_row (i n : nat) (ls : list (string * list string)) (cs : list nat) : labels * list nat :=
  match ls with
  | [] => ([], cs)
  | (tag, vs) :: r =>
      let ln := length vs in
      let pick := (tag, nth (Nat.modulo (nth i cs 0) ln) vs "") in
      let cs := if Nat.leb (n - 1) i then upd i S cs else cs in
      let cs := if Nat.eqb i 0 then cs else carry i ln cs in
      let '(row, cs) := combo_row (S i) n r cs in
      (pick :: row, cs)
  end.
Fixpoint combo_rows (k n : nat) (ls : list (string * list string)) (cs : list nat) : list labels :=
  match k with
  | O => []
  | S k => let '(row, cs) := combo_row 0 n ls cs in row :: combo_rows k n ls cs
  end.
Definition label_combinations (ls : list (string * list string)) : list labels :=
  let total := fold_left (fun a p => a * length (snd p))%nat ls 1 in
  combo_rows total (length ls) ls (map (fun _ => 0) ls).
