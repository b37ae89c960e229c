(** What someone who receives the JSON of a metric, a dataset, a use case or a component's capabilities finds in it.
    Entries are looked up by key, so the order of the entries does not matter. *)
From Coq Require Import String NArith ZArith List Bool Floats.SpecFloat.
From Verif Require Import Model.Field Model.Payloads Model.Json Model.JsonMore.
Import ListNotations.
Local Open Scope string_scope.

(** [at_key k j v]: the object [j] has exactly one entry with key [k], and its value is [v] *)
Definition at_key (k : string) (j v : json) : Prop :=
  exists before after, j = JObj (before ++ (k, v) :: after) /\ ~ In k (map fst (before ++ after)).
(** [each P j l]: [j] is an array, and its elements correspond by [P] to those of [l], one to one and in order *)
Definition each {A} (P : json -> A -> Prop) (j : json) (l : list A) : Prop := exists js, j = JArr js /\ Forall2 P js l.
(** a label and its value *)
Definition is_label (j : json) (p : string * string) : Prop := j = JArr [JStr (fst p); JStr (snd p)].
Definition is_labels : json -> list (string * string) -> Prop := each is_label.
(** a number; a float that is not finite is [null] *)
Definition is_float (j : json) (x : f64) : Prop :=
  match x with S754_nan | S754_infinity _ => j = JNull | _ => j = JFloat x end.
Definition is_count (j : json) (n : N) : Prop := j = JInt (Z.of_N n).

(** One series of a counter, of a gauge, of a histogram *)
Definition is_counter (j : json) (s : list (string * string) * Z) : Prop :=
  exists ls, at_key "labels" j ls /\ is_labels ls (fst s) /\ at_key "value" j (JInt (snd s)).
Definition is_gauge (j : json) (s : list (string * string) * f64) : Prop :=
  exists ls, at_key "labels" j ls /\ is_labels ls (fst s) /\ at_key "value" j (JFloat (snd s)).
Definition is_bucket (j : json) (b : f64 * N) : Prop :=
  exists le v, at_key "le" j le /\ is_float le (fst b) /\ at_key "v" j v /\ is_count v (snd b).
Record hist_seen := HistSeen { hs_labels : list (string * string); hs_count : N; hs_sum : f64; hs_buckets : list (f64 * N) }.
Definition is_hist (j : json) (s : hist_seen) : Prop :=
  exists ls c b, at_key "labels" j ls /\ is_labels ls (hs_labels s) /\ at_key "count" j c /\ is_count c (hs_count s)
    /\ at_key "sum" j (JFloat (hs_sum s)) /\ at_key "buckets" j b /\ each is_bucket b (hs_buckets s).

(** A definition: its name, its description, and a part with the kind and the series *)
Definition is_definition (j : json) (name description : string) (metric : json) : Prop :=
  at_key "name" j (JStr name) /\ at_key "description" j (JStr description) /\ at_key "metric" j metric.
(** [kinded kind_key series_key P m kind l] *)
Definition kinded {A} (kind_key series_key : string) (P : json -> A -> Prop) (m : json) (kind : string) (l : list A) : Prop :=
  at_key kind_key m (JStr kind) /\ exists s, at_key series_key m s /\ each P s l.

(** [shows k r j a]: the entry [k] of [j] reads as [a] *)
Definition shows {A} (k : string) (r : json -> option A) (j : json) (a : A) : Prop := exists v, at_key k j v /\ r v = Some a.

(** [has j l]: every entry of [l] is an entry of [j] *)
Definition has (j : json) (l : list (string * json)) : Prop := forall k v, In (k, v) l -> at_key k j v.

(** The written names of roles *)
Definition role_word (r : user_role) : string :=
  match r with Compliance => "Compliance" | Analyst => "Analyst" | Engineer => "Engineer" | Administrator => "Administrator" end.
(** A step of a playbook, as it is written: by hand, its name and description; automatic, who may start it and what it is *)
Definition is_step (j : json) (s : playbook_step) : Prop :=
  match s with
  | Manual name description => j = JObj [("Manual", JArr [JStr name; JStr description])]
  | Automated a =>
      exists d, j = JObj [("Automated", d)] /\ at_key "name" d (JStr (as_name a))
                /\ at_key "description" d (JStr (as_description a)) /\ at_key "min_role" d (JStr (role_word (as_min_role a)))
  end.
