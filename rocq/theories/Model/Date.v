(** Model of how src/events/field.rs shows dates: the calendar and the RFC 3339 writer of chrono, as in their documentation. *)
From Coq Require Import String NArith ZArith Bool.
From Verif Require Import Base.Str Model.Field.
Local Open Scope string_scope.
Local Open Scope Z_scope.

(** chrono [NaiveDate]: the proleptic Gregorian date of a day counted from 1970-01-01. Simplification: chrono finds it with tables over
    the same cycle of 400 years; here it is computed, years starting in March. *)
Definition civil (days : Z) : Z * Z * Z :=
  let z := days + 719468 in
  let era := z / 146097 in
  let doe := z mod 146097 in
  let yoe := (doe - doe / 1460 + doe / 36524 - doe / 146096) / 365 in
  let doy := doe - (365 * yoe + yoe / 4 - yoe / 100) in
  let mp := (5 * doy + 2) / 153 in
  let d := doy - (153 * mp + 2) / 5 + 1 in
  let m := if mp <? 10 then mp + 3 else mp - 9 in
  (yoe + era * 400 + (if m <=? 2 then 1 else 0), m, d).

(** [{:02}], [{:03}], [{:04}] of a number that fits *)
Fixpoint digits (w : nat) (n : N) : string :=
  match w with
  | O => ""
  | S w => append (digits w (n / 10)%N) (str1 (digit_char (n mod 10)%N))
  end.
Definition zdigits (w : nat) (z : Z) : string := digits w (Z.to_N z).
(** The year: four digits, or [{:+05}]: a sign and at least four digits. *)
Definition year_str (y : Z) : string :=
  let n := Z.abs_N y in
  let t := digits (Nat.max 4 (String.length (dec n))) n in
  if (0 <=? y) && (y <=? 9999) then t else append (if y <? 0 then "-" else "+") t.

(** [to_rfc3339_opts(SecondsFormat::Millis, true)] of a time in UTC *)
Definition rfc3339 (ms : Z) : string :=
  let '(y, m, d) := civil (ms / 86400000) in
  let t := ms mod 86400000 in
  append (year_str y) (append "-" (append (zdigits 2 m) (append "-" (append (zdigits 2 d) (append "T"
    (append (zdigits 2 (t / 3600000)) (append ":" (append (zdigits 2 (t / 60000 mod 60)) (append ":"
      (append (zdigits 2 (t / 1000 mod 60)) (append "." (append (zdigits 3 (t mod 1000)) "Z")))))))))))).

(** field.rs:64-71: a time chrono cannot represent becomes the default, 1970-01-01. [lo] and [hi] are chrono's first and last millisecond
    (they differ between its releases). *)
Definition date_display (lo hi ms : Z) : string := rfc3339 (if (lo <=? ms) && (ms <=? hi) then ms else 0).

(** The printers with dates shown this way *)
Definition with_dates (lo hi : Z) (P : printers) : printers := {| f64_str := f64_str P; date_str := date_display lo hi |}.
