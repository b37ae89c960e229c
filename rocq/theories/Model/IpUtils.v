(** Model of src/utilities/ip_utils.rs *)
From Coq Require Import String Ascii NArith List Bool.
From Verif Require Import Base.Str Base.Outcome.
Import ListNotations.
Local Open Scope string_scope.
Local Open Scope N_scope.

(** ip_utils.rs:4-16, the loop body of [ipv4_from_str] over the remaining (reversed) parts.
    [number += x << shift] is plain addition here; it cannot overflow (see C02). *)
Fixpoint ipv4_loop (parts : list string) (number shift : N) : result N string :=
  match parts with
  | [] => Ok number
  | part :: r =>
      if 32 <=? shift then Err "More than 4 dots"
      else match parse_u8 part with
           | None => Err "Cannot parse as u8"
           | Some v => ipv4_loop r (number + N.shiftl v shift) (shift + 8)
           end
  end.

(** ip_utils.rs:3-18 [ipv4_from_str] *)
Definition ipv4_from_str (s : string) : result N string :=
  ipv4_loop (rev (split_on "."%char s)) 0 0.

(** ip_utils.rs:21-28 [hex_to_digit] on one byte; [None] is [unreachable!()]. *)
Definition hex_to_digit (b : ascii) : option N :=
  let n := N_of_ascii b in
  if (48 <=? n) && (n <=? 57) then Some (n - 48)
  else if (97 <=? n) && (n <=? 102) then Some (n - 97 + 10)
  else if (65 <=? n) && (n <=? 70) then Some (n - 65 + 10)
  else None.

(** std [u8::is_ascii_hexdigit] *)
Definition is_hexdigit (b : ascii) : bool :=
  let n := N_of_ascii b in
  ((48 <=? n) && (n <=? 57)) || ((97 <=? n) && (n <=? 102)) || ((65 <=? n) && (n <=? 70)).

(** ip_utils.rs:29-37 [ipv4_to_u32_bytes] *)
Definition ipv4_to_u32_bytes (b : list ascii) : result N string :=
  match b with
  | [b0; b1; b2; b3] =>
      Ok (N.shiftl (N_of_ascii b0) 24 + N.shiftl (N_of_ascii b1) 16
          + N.shiftl (N_of_ascii b2) 8 + N_of_ascii b3)
  | _ => Err "Invalid IPV4 length"
  end.

(** ip_utils.rs:43-55: collect up to four leading hex digits ([digits[count]] stays in bounds
    because the loop stops at four). [Panic] is [hex_to_digit]'s [unreachable!()]. *)
Fixpoint take_digits (room : nat) (bytes : list ascii) : outcome (list N) :=
  match room with
  | O => Val []
  | S room' =>
      match bytes with
      | [] => Val []
      | b :: r =>
          if is_hexdigit b then
            match hex_to_digit b with
            | None => Panic
            | Some d => let! ds := take_digits room' r in Val (d :: ds)
            end
          else Val []
      end
  end.

(** ip_utils.rs:61-70: [res += digit << shift; if shift >= 4 { shift -= 4 } else { break }],
    in [u16] arithmetic: [Panic] on overflow of the addition. *)
Fixpoint sum_digits (ds : list N) (shift res : N) : outcome N :=
  match ds with
  | [] => Val res
  | d :: r =>
      let res' := res + N.shiftl d shift mod 65536 in
      if 65535 <? res' then Panic
      else if 4 <=? shift then sum_digits r (shift - 4) res' else Val res'
  end.

(** ip_utils.rs:42-74 [read_hextet]: (bytes read, value) *)
Definition read_hextet (bytes : list ascii) : outcome (nat * N) :=
  let! ds := take_digits 4 bytes in
  match ds with
  | [] => Val (0%nat, 0)
  | _ => let! v := sum_digits ds (N.of_nat (length ds - 1) * 4) 0 in Val (length ds, v)
  end.

(** [address[i] = v] on the eight-element array; [Panic] when out of bounds. *)
Fixpoint set_nth (i : nat) (v : N) (l : list N) : outcome (list N) :=
  match l, i with
  | [], _ => Panic
  | _ :: r, O => Val (v :: r)
  | x :: r, S i' => let! r' := set_nth i' v r in Val (x :: r')
  end.
Definition get_nth (i : nat) (l : list N) : outcome N :=
  match nth_error l i with Some v => Val v | None => Panic end.

(** Loop state of [ipv6_from_str] (ip_utils.rs:92-118). *)
Record v6state := { v6_off : nat; v6_ell : option nat; v6_addr : list N; v6_idx : nat }.

Inductive v6exit := Exit (st : v6state) | Fail (msg : string).

(** ip_utils.rs:120-197, the main loop; one unit of fuel per iteration. *)
Fixpoint v6_loop (fuel : nat) (bytes : list ascii) (st : v6state) : outcome v6exit :=
  match fuel with
  | O => OutOfFuel
  | S f =>
      if Nat.eqb (v6_off st) (length bytes) then Val (Exit st)
      else
        let! p := read_hextet (skipn (v6_off st) bytes) in
        let '(n, hextet) := p in
        if Nat.eqb n 0 then
          match nth_error bytes (v6_off st) with
          | None => Panic
          | Some ":"%char =>
              match v6_ell st with
              | Some _ => Val (Fail "IPv6 can only have one ellipsis")
              | None => v6_loop f bytes {| v6_off := v6_off st + 1; v6_ell := Some (v6_idx st);
                                           v6_addr := v6_addr st; v6_idx := v6_idx st |}
              end
          | Some _ => Val (Fail "IPv6 can only have one ellipsis")
          end
        else
          let! addr := set_nth (v6_idx st) hextet (v6_addr st) in
          let off := (v6_off st + n)%nat in
          let idx := (v6_idx st + 1)%nat in
          if Nat.eqb idx 8 || Nat.eqb off (length bytes) then
            Val (Exit {| v6_off := off; v6_ell := v6_ell st; v6_addr := addr; v6_idx := idx |})
          else
            match nth_error bytes off with
            | None => Panic
            | Some ":"%char =>
                v6_loop f bytes {| v6_off := off + 1; v6_ell := v6_ell st; v6_addr := addr; v6_idx := idx |}
            | Some "."%char =>
                match ipv4_to_u32_bytes (skipn (off - n) bytes) with
                | Err e => Val (Fail e)
                | Ok ipv4 =>
                    let! a1 := set_nth (idx - 1) (N.shiftr (N.land ipv4 4294901760) 16) addr in
                    let! a2 := set_nth idx (N.land ipv4 65535) a1 in
                    Val (Exit {| v6_off := off; v6_ell := v6_ell st; v6_addr := a2; v6_idx := idx + 1 |})
                end
            | Some _ => Val (Fail "Unexpected error")
            end
  end.

(** ip_utils.rs:217-220: [for index in (ell..idx).rev() { a[index+nz] = a[index]; a[index] = 0 }];
    [k] is the number of remaining indices, the current index is [ell + k - 1]. *)
Fixpoint shift_groups (k ell nz : nat) (addr : list N) : outcome (list N) :=
  match k with
  | O => Val addr
  | S k' =>
      let index := (ell + k')%nat in
      let! v := get_nth index addr in
      let! a1 := set_nth (index + nz) v addr in
      let! a2 := set_nth index 0 a1 in
      shift_groups k' ell nz a2
  end.

(** ip_utils.rs:227-234: the sum of the eight shifted groups. *)
Definition v6_sum (addr : list N) : outcome N :=
  match addr with
  | [a0; a1; a2; a3; a4; a5; a6; a7] =>
      Val (N.shiftl a0 112 + N.shiftl a1 96 + N.shiftl a2 80 + N.shiftl a3 64
           + N.shiftl a4 48 + N.shiftl a5 32 + N.shiftl a6 16 + a7)
  | _ => Panic
  end.

(** ip_utils.rs:199-234: after the loop. *)
Definition v6_finish (bytes : list ascii) (st : v6state) : outcome (result N string) :=
  if Nat.ltb (v6_off st) (length bytes) then Val (Err "There are trailing characters")
  else if Nat.eqb (v6_idx st) 8 && (match v6_ell st with Some _ => true | None => false end)
  then Val (Err "Empty elipsis")
  else
    let! addr :=
      (if Nat.ltb (v6_idx st) 8 then
         match v6_ell st with
         | Some e => let! a := shift_groups (v6_idx st - e) e (8 - v6_idx st) (v6_addr st) in Val (Ok a)
         | None => Val (Err "Error")
         end
       else Val (Ok (v6_addr st))) in
    match addr with
    | Err e => Val (Err e)
    | Ok a => let! v := v6_sum a in Val (Ok v)
    end.

(** ip_utils.rs:76-234 [ipv6_from_str] *)
Definition ipv6_from_bytes (bytes : list ascii) : outcome (result N string) :=
  if Nat.ltb 38 (length bytes) || Nat.ltb (length bytes) 2 then Val (Err "Invalid ipv6 size")
  else
    let start off ell :=
      let! e := v6_loop (S (length bytes)) bytes
                  {| v6_off := off; v6_ell := ell; v6_addr := repeat 0 8; v6_idx := 0 |} in
      match e with Fail m => Val (Err m) | Exit st => v6_finish bytes st end in
    match nth_error bytes 0, nth_error bytes 1 with
    | Some ":"%char, Some ":"%char =>
        if Nat.eqb (length bytes) 2 then Val (Ok 0) else start 2%nat (Some 0%nat)
    | Some ":"%char, Some _ => Val (Err "An IPv6 cannot start with a single column.")
    | Some _, _ => start 0%nat None
    | _, _ => Panic
    end.

Definition ipv6_from_str (s : string) : outcome (result N string) :=
  ipv6_from_bytes (list_ascii_of_string s).

(** ip_utils.rs:235-243 [ipv4_to_str] *)
Definition ipv4_to_str (ip : N) : string :=
  let c3 := N.land ip 255 in
  let c2 := N.land (N.shiftr ip 8) 255 in
  let c1 := N.land (N.shiftr (N.shiftr ip 8) 8) 255 in
  let c0 := N.land (N.shiftr (N.shiftr (N.shiftr ip 8) 8) 8) 255 in
  dec c0 ++ "." ++ dec c1 ++ "." ++ dec c2 ++ "." ++ dec c3.

(** ip_utils.rs:248-250 [is_local_ipv6] ([>>] binds tighter than [&], [&] tighter than [==]) *)
Definition is_local_ipv6 (ip : N) : bool := N.land (N.shiftr ip 120) 254 =? 252.

(** ip_utils.rs:251-274 [is_local_ipv4] *)
Definition is_local_ipv4 (ip : N) : bool :=
  let first := N.shiftr ip 24 in
  if first =? 10 then true
  else
    let second := N.land (N.shiftr ip 16) 255 in
    if (first =? 172) && ((16 <=? second) && (second <=? 31)) then true
    else if (first =? 192) && (second =? 168) then true
    else if (first =? 100) && ((64 <=? second) && (second <=? 127)) then true
    else false.

(** ip_utils.rs:276-281 [port_to_u16] *)
Definition port_to_u16 (s : string) : result N string :=
  match parse_u16 s with Some p => Ok p | None => Err "Cannot parse port as u16" end.

(** ip_utils.rs:283-291 [parse_ipv4_port] *)
Definition parse_ipv4_port (s : string) : option (N * N) :=
  match rcut ":"%char s with
  | Some (a, p) =>
      match ipv4_from_str a, port_to_u16 p with
      | Ok v1, Ok v2 => Some (v1, v2)
      | _, _ => None
      end
  | None => None
  end.

(** ip_utils.rs:293-301 [is_ipv4_port] *)
Definition is_ipv4_port (s : string) : bool :=
  match rcut ":"%char s with
  | Some (a, p) => match ipv4_from_str a, port_to_u16 p with Ok _, Ok _ => true | _, _ => false end
  | None => false
  end.

(** ip_utils.rs:302-304 [is_ipv4] *)
Definition is_ipv4 (s : string) : bool := is_ok (ipv4_from_str s).
(** ip_utils.rs:305-307 [is_ipv6] *)
Definition is_ipv6 (s : string) : outcome bool :=
  let! r := ipv6_from_str s in Val (is_ok r).
