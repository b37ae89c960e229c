(** Model of src/components/dataset/ip_net.rs and geo_ip/fast.rs (the same code, [T] is a text or a GeoIP record) and of
    the key layout and lookup of geo_ip/slow.rs. *)
From Coq Require Import NArith List Bool.
From Verif Require Import Base.Ord Base.BTree Base.Outcome Model.Ip Model.Datasets.
Import ListNotations.
Local Open Scope N_scope.

(** [uW::MAX.checked_shl(k).unwrap_or(0)] for a [w]-bit word *)
Definition shl_max (w k : N) : N := if k <? w then N.shiftl (2 ^ w - 1) k mod 2 ^ w else 0.

(** [w - net] on [u8] (ip_net.rs:100, 112, 172, 180): overflows, so aborts in a build with overflow checks, if [net > w] *)
Definition sub_u8 (w net : N) : outcome N := if net <=? w then Val (w - net) else Panic.

(** [trailing_zeros] of a [w]-bit word *)
Fixpoint pos_zeros (p : positive) : N := match p with xO q => 1 + pos_zeros q | _ => 0 end.
Definition trailing_zeros (w ip : N) : N := match ip with 0 => w | Npos p => pos_zeros p end.

(** One family: net length -> network address -> value (ip_net.rs:82-85, fast.rs:41-44) *)
Notation nets T := (bt N (bt N T)).

(** ip_net.rs:99-110 and 111-122, fast.rs:52-63 and 64-75 *)
Definition nets_insert {T} (w ip net : N) (data : T) (m : nets T) : outcome (nets T) :=
  let! k := sub_u8 w net in
  let ip_net := N.land ip (shl_max w k) in
  if bt_has net m then
    match bt_get net m with
    | Some dataset => Val (bt_insert net (bt_insert ip_net data dataset) m)
    | None => Val m
    end
  else Val (bt_insert net (bt_insert ip_net data bt_empty) m).

(** ip_net.rs:129-142 and 147-160, fast.rs:82-95 and 100-113: [for i in zeros..w], [n] turns left *)
Fixpoint nets_search {T} (w ip i : N) (n : nat) (m : nets T) : option T :=
  match n with
  | O => None
  | S n' =>
      let ip_net := N.land ip (shl_max w (w - i)) in
      match bt_get i m with
      | Some map =>
          match bt_get ip_net map with
          | Some v => Some v
          | None => nets_search w ip (i + 1) n' m
          end
      | None => nets_search w ip (i + 1) n' m
      end
  end.
(** ip_net.rs:127-144 and 145-162, fast.rs:80-97 and 98-115 *)
Definition nets_get {T} (w ip : N) (m : nets T) : option T :=
  let zeros := trailing_zeros w ip in
  nets_search w ip zeros (N.to_nat (w - zeros)) m.

(** ip_net.rs:167-174 and 175-182 *)
Definition nets_remove {T} (w ip net : N) (m : nets T) : outcome (nets T) :=
  match bt_get net m with
  | None => Val m
  | Some map =>
      let! k := sub_u8 w net in
      let ip_net := N.land ip (shl_max w k) in
      Val (bt_insert net (bt_remove ip_net map) m)
  end.

(** ip_net.rs:82-85, fast.rs:41-44 *)
Record ip_net (T : Type) := IpNet { nets4 : nets T; nets6 : nets T }.
Arguments IpNet {T} _ _.
Arguments nets4 {T} _.
Arguments nets6 {T} _.
(** ip_net.rs:88-93, fast.rs:47-49 *)
Definition ip_net_new {T} : ip_net T := IpNet bt_empty bt_empty.
(** ip_net.rs:94-124, fast.rs:50-77 *)
Definition ip_net_insert {T} (ip : siem_ip) (net : N) (data : T) (d : ip_net T) : outcome (ip_net T) :=
  match ip with
  | V4 ip => let! m := nets_insert 32 ip net data (nets4 d) in Val (IpNet m (nets6 d))
  | V6 ip => let! m := nets_insert 128 ip net data (nets6 d) in Val (IpNet (nets4 d) m)
  end.
(** ip_net.rs:125-164, fast.rs:78-117 *)
Definition ip_net_get {T} (ip : siem_ip) (d : ip_net T) : option T :=
  match ip with
  | V4 ip => nets_get 32 ip (nets4 d)
  | V6 ip => nets_get 128 ip (nets6 d)
  end.
(** ip_net.rs:165-184 (fast.rs has no removal) *)
Definition ip_net_remove {T} (ip : siem_ip) (net : N) (d : ip_net T) : outcome (ip_net T) :=
  match ip with
  | V4 ip => let! m := nets_remove 32 ip net (nets4 d) in Val (IpNet m (nets6 d))
  | V6 ip => let! m := nets_remove 128 ip net (nets6 d) in Val (IpNet (nets4 d) m)
  end.

Notation update_ip_net T := (update (siem_ip * N * T) (siem_ip * N) (ip_net T)).

(** ip_net.rs:65-77 *)
Fixpoint ip_net_rest {T} (new : ip_net T) (iter : list (update_ip_net T)) : outcome (ip_net T) :=
  match iter with
  | [] => Val new
  | Add (a, b, c) :: r => let! new := ip_net_insert a b c new in ip_net_rest new r
  | Remove (a, b) :: r => let! new := ip_net_remove a b new in ip_net_rest new r
  | Replace v :: r => ip_net_rest v r
  end.
(** ip_net.rs:49-79 *)
Definition ip_net_apply {T} (dataset : ip_net T) (updates : list (update_ip_net T)) : outcome (ip_net T) :=
  match updates with
  | [] => Panic
  | first :: iter =>
      let! new := match first with
                  | Replace v => Val v
                  | Add (a, b, c) => ip_net_insert a b c dataset
                  | Remove (a, b) => ip_net_remove a b dataset
                  end in
      ip_net_rest new iter
  end.

(** * The on-disk GeoIP dataset (feature slow_geoip) *)

(** [to_be_bytes] of a value of [n] bytes *)
Fixpoint be_bytes (n : nat) (v : N) : list N :=
  match n with
  | O => []
  | S n' => be_bytes n' (v / 256) ++ [v mod 256]
  end.

(** slow.rs:67-89: 18 bytes; byte 17 is first [net], then overwritten with 1 for IPv6 *)
Definition get_key (ip : siem_ip) (net : N) : outcome (list N) :=
  match ip with
  | V4 v =>
      let! k := sub_u8 32 net in
      Val (be_bytes 4 (N.land v (shl_max 32 k)) ++ repeat 0 13 ++ [net])
  | V6 v =>
      let! k := sub_u8 128 net in
      Val (be_bytes 16 (N.land v (shl_max 128 k)) ++ [0; 1])
  end.

(** The sled tree is a map from byte strings; opening, flushing and i/o errors (slow.rs:60-63, 106-108) are not modelled; the JSON
    encoding of the values (geo_ip/mod.rs:22-34) is in Model/GeoIp.v. *)
Definition tree (T : Type) := list (list N * T).
Fixpoint bytes_eqb (a b : list N) : bool :=
  match a, b with
  | [], [] => true
  | x :: a', y :: b' => (x =? y) && bytes_eqb a' b'
  | _, _ => false
  end.
Definition tree_get {T} (k : list N) (t : tree T) : option T :=
  match find (fun p => bytes_eqb k (fst p)) t with Some (_, v) => Some v | None => None end.

(** slow.rs:64-66 *)
Definition slow_insert {T} (ip : siem_ip) (net : N) (data : T) (t : tree T) : outcome (tree T) :=
  let! k := get_key ip net in Val ((k, data) :: t).

(** slow.rs:95-110 *)
Fixpoint slow_search {T} (ip : siem_ip) (net : N) (n : nat) (t : tree T) : outcome (option T) :=
  match n with
  | O => Val None
  | S n' =>
      let! key := get_key ip net in
      match tree_get key t with
      | None => slow_search ip (net + 1) n' t
      | Some v => Val (Some v)
      end
  end.
(** slow.rs:90-112 *)
Definition slow_get {T} (ip : siem_ip) (t : tree T) : outcome (option T) :=
  let '(zeros, max_net) := match ip with
                           | V4 ip => (trailing_zeros 32 ip, 32)
                           | V6 ip => (trailing_zeros 128 ip, 128)
                           end in
  slow_search ip zeros (N.to_nat (max_net - zeros)) t.
