(** Model of src/events/ip.rs and of [ipv6_to_str] (src/utilities/ip_utils.rs:245-247). *)
From Coq Require Import String Ascii NArith List Bool.
From Verif Require Import Base.Str Base.Outcome Model.IpUtils.
Import ListNotations.
Local Open Scope string_scope.
Local Open Scope N_scope.

(** [Ipv6Addr::segments]: the eight 16-bit groups, most significant first. *)
Definition segments (ip : N) : list N :=
  map (fun k => N.land (N.shiftr ip (16 * k)) 65535) [7; 6; 5; 4; 3; 2; 1; 0].

(** std's [Display for Ipv6Addr]: the first longest run of zero groups.
    [longest_zeros segs i cur best]: [i] index of the head of [segs], [cur] and [best] are (start, len). *)
Fixpoint longest_zeros (segs : list N) (i : nat) (cur best : nat * nat) : nat * nat :=
  match segs with
  | [] => best
  | g :: r =>
      if g =? 0 then
        let cur' := (if Nat.eqb (snd cur) 0 then i else fst cur, S (snd cur)) in
        longest_zeros r (S i) cur' (if Nat.ltb (snd best) (snd cur') then cur' else best)
      else longest_zeros r (S i) (0%nat, 0%nat) best
  end.

(** [fmt_subslice]: hexadecimal groups separated by ':'. *)
Definition fmt_subslice (segs : list N) : string := join ":" (map hex segs).

(** ip_utils.rs:245-247 [Ipv6Addr::from(ipv6).to_string()]: an IPv4-mapped address prints as "::ffff:a.b.c.d",
    otherwise the first longest run of at least two zero groups is written '::'. *)
Definition ipv6_to_str (ip : N) : string :=
  if N.shiftr ip 32 =? 65535 then "::ffff:" ++ ipv4_to_str (N.land ip 4294967295)
  else
    let segs := segments ip in
    let z := longest_zeros segs 0 (0%nat, 0%nat) (0%nat, 0%nat) in
    if Nat.ltb 1 (snd z) then
      fmt_subslice (firstn (fst z) segs) ++ "::" ++ fmt_subslice (skipn (fst z + snd z) segs)
    else fmt_subslice segs.

(** ip.rs:12-16 *)
Inductive siem_ip := V4 (ip : N) | V6 (ip : N).

(** ip.rs:17-26 [PartialEq] *)
Definition ip_eqb (a b : siem_ip) : bool :=
  match a, b with V4 x, V4 y => x =? y | V6 x, V6 y => x =? y | _, _ => false end.

(** ip.rs:29-34 *)
Definition ip_is_local (a : siem_ip) : bool :=
  match a with V4 x => is_local_ipv4 x | V6 x => is_local_ipv6 x end.

(** ip.rs:35-46 *)
Definition ip_equals (a : siem_ip) (val : string) : outcome bool :=
  match a with
  | V4 x => Val (match ipv4_from_str val with Ok y => x =? y | Err _ => false end)
  | V6 x => let! r := ipv6_from_str val in Val (match r with Ok y => x =? y | Err _ => false end)
  end.

(** ip.rs:47-55 *)
Definition from_ip_str (val : string) : outcome (result siem_ip string) :=
  match ipv4_from_str val with
  | Ok x => Val (Ok (V4 x))
  | Err _ => let! r := ipv6_from_str val in Val (match r with Ok x => Ok (V6 x) | Err e => Err e end)
  end.

(** ip.rs:66-72 [From<[u32;4]>]; ip.rs:73-94 [From<[u32;16]>]: each entry is masked to eight bits *)
Definition ip_of_octets (v : list N) : N :=
  fold_left (fun acc x => acc * 256 + N.land x 255) v 0.

(** ip.rs:138-146 [Display] *)
Definition ip_to_string (a : siem_ip) : string :=
  match a with V4 x => ipv4_to_str x | V6 x => ipv6_to_str x end.

(** The values the Rust type can hold. *)
Definition ip_ok (a : siem_ip) : Prop := match a with V4 x => x < 2 ^ 32 | V6 x => x < 2 ^ 128 end.
