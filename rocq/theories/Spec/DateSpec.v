(** Dates: the Gregorian calendar, and times as RFC 3339 texts in UTC with milliseconds. *)
From Coq Require Import String Ascii NArith ZArith List Bool.
Import ListNotations.
Local Open Scope Z_scope.

Definition leap (y : Z) : bool := (y mod 4 =? 0) && negb (y mod 100 =? 0) || (y mod 400 =? 0).
Definition month_len (y m : Z) : Z :=
  if m =? 2 then (if leap y then 29 else 28)
  else if (m =? 4) || (m =? 6) || (m =? 9) || (m =? 11) then 30 else 31.
Definition valid_date (y m d : Z) : Prop := 1 <= m <= 12 /\ 1 <= d <= month_len y m.
(** The day after a day *)
Definition next_day (a b : Z * Z * Z) : Prop :=
  let '(y, m, d) := a in
  b = if d <? month_len y m then (y, m, d + 1) else if m <? 12 then (y, m + 1, 1) else (y + 1, 1, 1).
(** [day_number n date]: counting from 1970-01-01, [date] is day [n]. *)
Inductive day_number : Z -> Z * Z * Z -> Prop :=
| day_epoch : day_number 0 (1970, 1, 1)
| day_after n a b : day_number n a -> next_day a b -> day_number (n + 1) b
| day_before n a b : day_number n a -> next_day b a -> valid_date (fst (fst b)) (snd (fst b)) (snd b) -> day_number (n - 1) b.

(** [number w s n]: [s] is [n] written with exactly [w] decimal digits. *)
Definition digit_of (a : ascii) : option Z :=
  let n := Z.of_N (N_of_ascii a) in if (48 <=? n) && (n <=? 57) then Some (n - 48) else None.
Inductive number : nat -> string -> Z -> Prop :=
| num_none : number 0 "" 0
| num_digit w s n a d : number w s n -> digit_of a = Some d -> number (S w) (append s (String a EmptyString)) (10 * n + d).

(** [year_text s y]: four digits; a year before 0 or after 9999 has a sign, and as many digits as it needs. *)
Definition year_text (s : string) (y : Z) : Prop :=
  number 4 s y \/
  exists w t n, number w t n /\ (w = 4%nat \/ (4 < w)%nat /\ 10 ^ (Z.of_nat w - 1) <= n) /\
    (s = ("-" ++ t)%string /\ y = - n /\ 0 < n \/ s = ("+" ++ t)%string /\ y = n /\ 9999 < n).
(** [utc_text s ms]: [s] is a date and a time of day, and [ms] the milliseconds from 1970-01-01T00:00 to it. *)
Definition utc_text (s : string) (ms : Z) : Prop :=
  exists sy y sm m sd d sh h smi mi ss se sml ml days,
    s = (sy ++ "-" ++ sm ++ "-" ++ sd ++ "T" ++ sh ++ ":" ++ smi ++ ":" ++ ss ++ "." ++ sml ++ "Z")%string
    /\ year_text sy y /\ number 2 sm m /\ number 2 sd d /\ number 2 sh h /\ number 2 smi mi /\ number 2 ss se /\ number 3 sml ml
    /\ valid_date y m d /\ h < 24 /\ mi < 60 /\ se < 60
    /\ day_number days (y, m, d) /\ ms = days * 86400000 + h * 3600000 + mi * 60000 + se * 1000 + ml.
