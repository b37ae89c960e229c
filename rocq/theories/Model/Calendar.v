(** Model of src/components/dataset/calendar.rs.  Times are [i64] milliseconds, modelled in Z; [Z.quot] is Rust's
    truncating division.  [calendar_no_overflow] (Proofs/CalendarP.v) shows no intermediate value leaves the i64 range. *)
From Coq Require Import String ZArith List Bool.
From Verif Require Import Base.Ord Base.BTree.
Import ListNotations.
Local Open Scope Z_scope.

Notation day_ms := 86400000 (only parsing).

(** calendar.rs:44-46 *)
Definition calendar := bt Z (list (Z * Z * string)).
(** calendar.rs:49-51 *)
Definition cal_new : calendar := bt_empty.

(** calendar.rs:57-65 and 79-87: append to the entry of the day or create it *)
Definition cal_push (day : Z) (x : Z * Z * string) (m : calendar) : calendar :=
  match bt_get day m with
  | Some dt => bt_insert day (dt ++ [x]) m
  | None => bt_insert day [x] m
  end.

(** calendar.rs:69-77: the segment of the event stored for [day] *)
Definition cal_segment (start end_ start_day end_day day : Z) : Z * Z :=
  if day =? end_day then (day * day_ms, end_)
  else if day =? start_day then (start, day * day_ms)
  else (day * day_ms, (day + 1) * day_ms).

(** calendar.rs:68-88: [for day in start_day..(end_day + 1)], [n] days left *)
Fixpoint cal_days (start end_ start_day end_day day : Z) (n : nat) (data : string) (m : calendar) : calendar :=
  match n with
  | O => m
  | S n' =>
      let seg := cal_segment start end_ start_day end_day day in
      cal_days start end_ start_day end_day (day + 1) n' data (cal_push day (fst seg, snd seg, data) m)
  end.

(** calendar.rs:52-91 *)
Definition cal_insert (start end_ : Z) (data : string) (m : calendar) : calendar :=
  let start_day := Z.quot start day_ms in
  let end_day := Z.quot end_ day_ms in
  if start_day - end_day =? 0 then cal_push start_day (start, end_, data) m
  else cal_days start end_ start_day end_day start_day (Z.to_nat (end_day + 1 - start_day)) data m.

(** calendar.rs:93-110 *)
Definition cal_get (time : Z) (m : calendar) : option (list string) :=
  let day := Z.quot time day_ms in
  match bt_get day m with
  | Some v =>
      let to_ret := map snd (filter (fun x => (fst (fst x) <=? time) && (time <=? snd (fst x))) v) in
      match to_ret with [] => None | _ => Some to_ret end
  | None => None
  end.
