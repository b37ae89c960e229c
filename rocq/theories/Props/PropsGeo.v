(** C185, C186: the records of the on-disk GeoIP dataset. *)
From Coq Require Import String NArith ZArith List Bool Lia Floats.SpecFloat.
From Verif Require Import Base.Arith Base.Outcome Model.Field Model.Ip Model.Datasets Model.NetDataset Model.Json Model.GeoIp
  Spec.DatasetSpec Spec.DatasetRuns Spec.SingleSpec Proofs.Round32P Proofs.DatasetP Proofs.GeoP Props.PropsDatasets.
Import ListNotations.
Local Open Scope string_scope.

(** Specification: a coordinate is a number; the asn has 32 bits; the text of a float of 32 bits tells which float it is. *)
Definition f32_ok (f : f32) : Prop := valid_binary 24 128 f = true.
Definition number32 (f : f32) : Prop := match f with S754_zero _ | S754_finite _ _ _ => True | S754_infinity _ | S754_nan => False end.
Definition record_ok (g : geo_info) : Prop := f32_ok (latitude g) /\ f32_ok (longitude g) /\ (asn g < 2 ^ 32)%N.
Definition located (g : geo_info) : Prop := number32 (latitude g) /\ number32 (longitude g).
Definition reads_f32 (t : f32_text) (io : float_io) : Prop :=
  forall f, f32_ok f -> number32 f -> exists d, reread io (t f) = Some d /\ to_f32 d = f.
(** A history of records stored in the empty dataset *)
Definition geo_run (t : f32_text) (ops : list (siem_ip * N * geo_info)) : outcome (tree json) :=
  fold_left (fun tr o => let '(ip, net, g) := o in obind tr (geo_insert t ip net g)) ops (Val []).

Lemma to_f32_same f : f32_ok f -> to_f32 f = f.
Proof.
  destruct f as [s|s| |s m e]; intros H; try reflexivity. unfold f32_ok in H. cbn [valid_binary] in H. unfold bounded, canonical_mantissa in H.
  apply andb_prop in H as [C B]. apply Zeq_bool_eq in C.
  assert (F : fexp 24 128 (Zdigits2 (Z.pos m) + e) = e) by exact C.
  cbn [to_f32]. unfold binary_round, shl_align. rewrite C, Z.sub_diag.
  unfold binary_round_aux, shr_fexp. rewrite F, Z.sub_diag. cbn [shr shr_record_of_loc shr_m loc_of_shr_record shr_r shr_s round_nearest_even].
  rewrite F, Z.sub_diag. cbn [shr shr_record_of_loc shr_m]. rewrite B. reflexivity.
Qed.
(** the hypothesis can be met *)
Example reads_f32_case : reads_f32 (fun f => f) {| reread := Some; big_int := fun _ => None |}.
Proof. intros f O N. exists f. split; [reflexivity|]. apply to_f32_same, O. Qed.

Lemma finite_number f : is_finite f = true <-> number32 f.
Proof. destruct f; cbn; split; try discriminate; tauto. Qed.
Lemma read_written t io f : reads_f32 t io -> f32_ok f -> read_f32 io (json_of_f32 t f) = if is_finite f then Some f else None.
Proof.
  intros R O. unfold json_of_f32. destruct (is_finite f) eqn:F; [|reflexivity]. apply finite_number in F. destruct (R f O F) as (d & E & T).
  cbn [read_f32]. rewrite E, T. reflexivity.
Qed.
Definition geo_names : list string := ["country"; "country_iso"; "city"; "latitude"; "longitude"; "isp"; "asn"].
Lemma geo_members a b c d e f g :
  struct_fields geo_names (JObj [("country", a); ("country_iso", b); ("city", c); ("latitude", d); ("longitude", e); ("isp", f); ("asn", g)])
  = Some [Some a; Some b; Some c; Some d; Some e; Some f; Some g].
Proof. vm_compute. reflexivity. Qed.
Lemma geo_rt t io g : reads_f32 t io -> record_ok g ->
  geo_info_of_json io (json_of_geo_info t g) = if is_finite (latitude g) && is_finite (longitude g) then Some g else None.
Proof.
  intros R (A & B & C). destruct g as [a b c la lo i n]. cbn [latitude longitude asn] in *.
  unfold geo_info_of_json, json_of_geo_info. cbn [country country_iso city latitude longitude isp asn].
  fold geo_names. rewrite geo_members. cbn [req read_str]. rewrite !(read_written t io) by assumption.
  destruct (is_finite la); [|reflexivity]. destruct (is_finite lo); [|reflexivity]. cbn [andb].
  assert (N : read_uint 32 (json_of_n n) = Some n).
  { unfold json_of_n, read_uint. rewrite (proj2 (Z.leb_le 0 (Z.of_N n))) by lia. rewrite (proj2 (Z.ltb_lt (Z.of_N n) (2 ^ 32))) by lia.
    cbn [andb]. rewrite N2Z.id. reflexivity. }
  rewrite N. reflexivity.
Qed.

(** A record written as JSON is read back as it was; one whose latitude or longitude is not a number is not read. *)
Theorem C185_record : forall t io g, reads_f32 t io -> record_ok g ->
  (located g -> geo_info_of_json io (json_of_geo_info t g) = Some g) /\
  (~ located g -> geo_info_of_json io (json_of_geo_info t g) = None).
Proof.
  intros t io g R O. rewrite (geo_rt t io g R O). unfold located. rewrite <- !finite_number.
  destruct (is_finite (latitude g)), (is_finite (longitude g)); cbn [andb]; split; intros H; try reflexivity; exfalso.
  all: try (destruct H; discriminate). all: apply H; auto.
Qed.
Print Assumptions C185_record.

(** What is stored: the seven members of the record under the names of the format. *)
Theorem C185_document : forall t g, json_of_geo_info t g =
  JObj [("country", JStr (country g)); ("country_iso", JStr (country_iso g)); ("city", JStr (city g));
        ("latitude", if is_finite (latitude g) then JFloat (t (latitude g)) else JNull);
        ("longitude", if is_finite (longitude g) then JFloat (t (longitude g)) else JNull);
        ("isp", JStr (isp g)); ("asn", JInt (Z.of_N (asn g)))].
Proof. reflexivity. Qed.
(** Whatever is read, by whatever program it was stored, has a number of 32 bits, and all members must be there. *)
Theorem C185_reads : forall io l g, geo_info_of_json io (JObj l) = Some g ->
  (asn g < 2 ^ 32)%N /\ Forall (fun name => exists v, entries name l = [v]) geo_names.
Proof.
  intros io l g H. unfold geo_info_of_json in H. fold geo_names in H. destruct (struct_fields geo_names (JObj l)) as [fs|] eqn:E; [|discriminate].
  destruct fs as [|a [|b [|c [|d [|e [|f [|n [|]]]]]]]]; try discriminate.
  assert (U : forall v, read_uint 32 v = Some (asn g) -> (asn g < 2 ^ 32)%N).
  { intros v R. unfold read_uint in R. destruct v; try discriminate. destruct ((0 <=? z)%Z && (z <? 2 ^ 32)%Z) eqn:B; [|discriminate].
    apply andb_prop in B as [B1 B2]. apply Z.leb_le in B1. apply Z.ltb_lt in B2. injection R as <-. lia. }
  destruct a as [a|]; [|discriminate]. cbn [req] in H. destruct (read_str a); [|discriminate].
  destruct b as [b|]; [|discriminate]. cbn [req] in H. destruct (read_str b); [|discriminate].
  destruct c as [c|]; [|discriminate]. cbn [req] in H. destruct (read_str c); [|discriminate].
  destruct d as [d|]; [|discriminate]. cbn [req] in H. destruct (read_f32 io d); [|discriminate].
  destruct e as [e|]; [|discriminate]. cbn [req] in H. destruct (read_f32 io e); [|discriminate].
  destruct f as [f|]; [|discriminate]. cbn [req] in H. destruct (read_str f); [|discriminate].
  destruct n as [n|]; [|discriminate]. cbn [req] in H. destruct (read_uint 32 n) as [k|] eqn:K; [|discriminate].
  split; [apply (U n); injection H as <-; exact K|].
  assert (O : forall name v, once (entries name l) = Some (Some v) -> exists v, entries name l = [v]).
  { intros name v Hv. destruct (entries name l) as [|x [|]]; try discriminate. exists x. reflexivity. }
  cbn [struct_fields mapM geo_names] in E.
  repeat match type of E with
  | context [once (entries ?nm l)] =>
      let X := fresh "X" in destruct (once (entries nm l)) as [?|] eqn:X; [|discriminate E]
  end.
  injection E as -> -> -> -> -> -> ->. repeat (constructor; [eapply O; eassumption|]). constructor.
Qed.
Print Assumptions C185_document.
Print Assumptions C185_reads.

(** Coordinates given as whole numbers: those of the globe are read exactly, whatever reads floats; a number of 64 bits, with
    or without a sign, does not go through a float of 64 bits, any other whole number does. *)
Definition geo_document (la lo : json) (n : N) : json :=
  JObj [("country", JStr "c"); ("country_iso", JStr "i"); ("city", JStr "t"); ("latitude", la); ("longitude", lo); ("isp", JStr "p"); ("asn", JInt (Z.of_N n))].
(** [f] is the number [z] *)
Definition worth (f : f32) (z : Z) : Prop :=
  match f with
  | S754_zero _ => z = 0%Z
  | S754_finite s m e => ((if s then - Z.pos m else Z.pos m) * 2 ^ Z.max e 0 = z * 2 ^ Z.max (- e) 0)%Z
  | _ => False
  end.
Lemma geo_numbers io la lo n : (n < 2 ^ 32)%N -> geo_info_of_json io (geo_document la lo n) =
  match read_f32 io la, read_f32 io lo with Some a, Some b => Some (GeoInfo "c" "i" "t" a b "p" n) | _, _ => None end.
Proof.
  intros B. unfold geo_info_of_json, geo_document. fold geo_names. rewrite geo_members. cbn [req read_str].
  destruct (read_f32 io la); [|reflexivity]. destruct (read_f32 io lo); [|reflexivity].
  assert (N : read_uint 32 (JInt (Z.of_N n)) = Some n).
  { unfold read_uint. rewrite (proj2 (Z.leb_le 0 (Z.of_N n))) by lia. rewrite (proj2 (Z.ltb_lt (Z.of_N n) (2 ^ 32))) by lia.
    cbn [andb]. rewrite N2Z.id. reflexivity. }
  rewrite N. reflexivity.
Qed.
Definition is_worth (f : f32) (z : Z) : bool :=
  match f with
  | S754_zero _ => (z =? 0)%Z
  | S754_finite s m e => ((if s then - Z.pos m else Z.pos m) * 2 ^ Z.max e 0 =? z * 2 ^ Z.max (- e) 0)%Z
  | _ => false
  end.
Lemma worth_check : forallb (fun k => is_worth (int_as_f32 (Z.of_nat k - 180)) (Z.of_nat k - 180)) (seq 0 361) = true.
Proof. vm_compute. reflexivity. Qed.
Lemma worth_globe z : (-180 <= z <= 180)%Z -> worth (int_as_f32 z) z.
Proof.
  intros B. pose proof worth_check as C. rewrite forallb_forall in C. specialize (C (Z.to_nat (z + 180))).
  replace (Z.of_nat (Z.to_nat (z + 180)) - 180)%Z with z in C by lia.
  assert (W : is_worth (int_as_f32 z) z = true) by (apply C, in_seq; lia).
  unfold worth, is_worth in *. destruct (int_as_f32 z); try discriminate; apply Z.eqb_eq in W; exact W.
Qed.
Theorem C185_whole : forall io n, (n < 2 ^ 32)%N ->
  (forall la lo, (-180 <= la <= 180)%Z -> (-180 <= lo <= 180)%Z -> exists a b,
    geo_info_of_json io (geo_document (JInt la) (JInt lo) n) = Some (GeoInfo "c" "i" "t" a b "p" n) /\ worth a la /\ worth b lo) /\
  (forall la lo, (- 2 ^ 63 <= la < 2 ^ 64)%Z -> (- 2 ^ 63 <= lo < 2 ^ 64)%Z ->
    geo_info_of_json io (geo_document (JInt la) (JInt lo) n) = Some (GeoInfo "c" "i" "t" (int_as_f32 la) (int_as_f32 lo) "p" n)) /\
  (forall la lo, (la < - 2 ^ 63 \/ 2 ^ 64 <= la)%Z -> (- 2 ^ 63 <= lo < 2 ^ 64)%Z ->
    geo_info_of_json io (geo_document (JInt la) (JInt lo) n) =
    match big_int io la with Some d => Some (GeoInfo "c" "i" "t" (to_f32 d) (int_as_f32 lo) "p" n) | None => None end).
Proof.
  intros io n B.
  assert (R : forall z, (- 2 ^ 63 <= z < 2 ^ 64)%Z -> read_f32 io (JInt z) = Some (int_as_f32 z)).
  { intros z (Z1 & Z2). unfold read_f32. rewrite (proj2 (Z.leb_le _ _) Z1), (proj2 (Z.ltb_lt _ _) Z2). reflexivity. }
  splits; intros la lo Hla Hlo.
  - exists (int_as_f32 la), (int_as_f32 lo). splits; [|apply worth_globe; assumption|apply worth_globe; assumption].
    rewrite (geo_numbers io _ _ n B), !R by lia. reflexivity.
  - rewrite (geo_numbers io _ _ n B), !R by assumption. reflexivity.
  - rewrite (geo_numbers io _ _ n B), (R lo Hlo). unfold read_f32.
    assert (F : ((- 2 ^ 63 <=? la)%Z && (la <? 2 ^ 64)%Z)%bool = false).
    { destruct Hla as [Hla|Hla]; [rewrite (proj2 (Z.leb_gt _ _) Hla); reflexivity|rewrite (proj2 (Z.ltb_ge _ _) Hla); apply andb_false_r]. }
    rewrite F. destruct (big_int io la); reflexivity.
Qed.

(** Coordinates are kept with 32 bits: a whole number, and the number of 64 bits the text of the document stands for, become
    the nearest number of 32 bits (ties to the even mantissa; what is too large is infinite), the sign is kept and the whole
    number 0 is positive. *)
Lemma whole_rounded z : rounded (z <? 0)%Z (Z.abs z * 2 ^ 1074)%Z (int_as_f32 z).
Proof.
  unfold int_as_f32, binary_normalize. destruct z as [|p|p].
  - cbn [rounded]. split; [reflexivity|]. cbn [Z.abs]. rewrite Z.mul_0_l. apply (near_low 0 0); [lia|]. unfold RoundP.rounds. cbn [Z.mul Z.abs Z.sub Z.opp Z.add].
    split; [|reflexivity]. apply Z.pow_nonneg. lia.
  - exact (binary_round_single false p 0 ltac:(lia)).
  - exact (binary_round_single true p 0 ltac:(lia)).
Qed.
Lemma narrow d : valid_binary 53 1024 d = true -> narrowed d (to_f32 d).
Proof.
  destruct d as [s|s| |s m e]; intro H; try reflexivity. cbn [narrowed to_f32]. apply binary_round_single.
  cbn [valid_binary] in H. unfold bounded, canonical_mantissa in H. apply andb_prop in H as [C _]. apply Zeq_bool_eq in C.
  unfold fexp, emin in C. lia.
Qed.
Theorem C185_rounding : forall io n, (n < 2 ^ 32)%N ->
  (forall la lo, (- 2 ^ 63 <= la < 2 ^ 64)%Z -> (- 2 ^ 63 <= lo < 2 ^ 64)%Z -> exists a b,
    geo_info_of_json io (geo_document (JInt la) (JInt lo) n) = Some (GeoInfo "c" "i" "t" a b "p" n) /\
    rounded (la <? 0)%Z (Z.abs la * 2 ^ 1074) a /\ rounded (lo <? 0)%Z (Z.abs lo * 2 ^ 1074) b) /\
  (forall la lo x y, reread io la = Some x -> reread io lo = Some y ->
    valid_binary 53 1024 x = true -> valid_binary 53 1024 y = true -> exists a b,
    geo_info_of_json io (geo_document (JFloat la) (JFloat lo) n) = Some (GeoInfo "c" "i" "t" a b "p" n) /\
    narrowed x a /\ narrowed y b).
Proof.
  intros io n B. split.
  - intros la lo Hla Hlo. exists (int_as_f32 la), (int_as_f32 lo). splits; [|apply whole_rounded|apply whole_rounded].
    apply (C185_whole io n B); assumption.
  - intros la lo x y X Y VX VY. exists (to_f32 x), (to_f32 y). splits; [|apply narrow; assumption|apply narrow; assumption].
    rewrite (geo_numbers io _ _ n B). cbn [read_f32]. rewrite X, Y. reflexivity.
Qed.
(** 2^24 + 1 is between two numbers of 32 bits and becomes the even one; 0.1 of 64 bits becomes 0.1 of 32. *)
Example C185_rounding_case :
  int_as_f32 16777217 = S754_finite false 8388608 1 /\ int_as_f32 0 = S754_zero false /\
  valid_binary 53 1024 (S754_finite false 7205759403792794 (-56)) = true /\
  to_f32 (S754_finite false 7205759403792794 (-56)) = S754_finite false 13421773 (-27).
Proof. vm_compute. auto. Qed.
Print Assumptions C185_whole.
Print Assumptions C185_rounding.

(** * The tree of the JSON texts is the tree of the records, text by text *)
Definition written (t : f32_text) (tr : tree geo_info) : tree json := map (fun p => (fst p, json_of_geo_info t (snd p))) tr.
Lemma written_get t k tr : tree_get k (written t tr) = option_map (json_of_geo_info t) (tree_get k tr).
Proof.
  unfold tree_get, written. induction tr as [|[k' g] tr IH]; [reflexivity|]. cbn [map find fst snd].
  destruct (bytes_eqb k k'); [reflexivity|exact IH].
Qed.
Lemma written_search t ip tr : forall n net, slow_search ip net n (written t tr) = obind (slow_search ip net n tr) (fun r => Val (option_map (json_of_geo_info t) r)).
Proof.
  induction n as [|n IH]; intros net; [reflexivity|]. cbn [slow_search]. destruct (get_key ip net) as [k| |]; cbn [obind]; try reflexivity.
  rewrite written_get. destruct (tree_get k tr); cbn [option_map]; [reflexivity|apply IH].
Qed.
Lemma written_slow_get t ip tr : slow_get ip (written t tr) = obind (slow_get ip tr) (fun r => Val (option_map (json_of_geo_info t) r)).
Proof. unfold slow_get. destruct ip; apply written_search. Qed.
Lemma geo_run_written t ops : geo_run t ops = obind (slow_run ops) (fun tr => Val (written t tr)).
Proof.
  unfold geo_run, slow_run. induction ops as [|[[ip net] g] ops IH] using rev_ind; [reflexivity|]. rewrite !fold_left_app. cbn [fold_left]. rewrite IH.
  match goal with |- context [obind (fold_left ?f ops (Val [])) (fun tr => Val (written t tr))] => destruct (fold_left f ops (Val [])) as [tr| |] end;
    cbn [obind]; try reflexivity.
  unfold geo_insert, slow_insert. destruct (get_key ip net) as [k| |]; reflexivity.
Qed.
Lemma run_In {T} (ops : list (siem_ip * N * T)) : forall tr, slow_run ops = Val tr -> forall k v, tree_get k tr = Some v -> exists o, In o ops /\ snd o = v.
Proof.
  unfold slow_run. induction ops as [|[[ip net] g] ops IH] using rev_ind; intros tr E k v G.
  - injection E as <-. discriminate.
  - rewrite fold_left_app in E. cbn [fold_left] in E. match type of E with obind ?m _ = _ => destruct m as [tr0| |]; try discriminate end. cbn [obind] in E.
    unfold slow_insert in E. destruct (get_key ip net) as [k0| |]; try discriminate. cbn [obind] in E. injection E as <-.
    unfold tree_get in G. cbn [find fst] in G. destruct (bytes_eqb k k0).
    + injection G as <-. exists (ip, net, g). split; [apply in_or_app; right; left; reflexivity|reflexivity].
    + destruct (IH tr0 eq_refl k v G) as (o & I & S). exists o. split; [apply in_or_app; left; exact I|exact S].
Qed.
Lemma search_In {T} ip (tr : tree T) : forall n net v, slow_search ip net n tr = Val (Some v) -> exists k, tree_get k tr = Some v.
Proof.
  induction n as [|n IH]; intros net v E; [discriminate|]. cbn [slow_search] in E. destruct (get_key ip net) as [k| |]; try discriminate. cbn [obind] in E.
  destruct (tree_get k tr) as [w|] eqn:G; [injection E as <-; exists k; exact G|]. exact (IH _ _ E).
Qed.

(** Records are found as they were stored: whatever networks and records are stored, the dataset answers every lookup like
    a dataset that keeps the records themselves (of which C66 tells the answers), as long as the coordinates are numbers. *)
Theorem C185_lookups : forall t io ops d, reads_f32 t io ->
  Forall (fun o => record_ok (snd o) /\ located (snd o)) ops -> slow_run ops = Val d ->
  exists tr, geo_run t ops = Val tr /\ forall ip, geo_get io ip tr = slow_get ip d.
Proof.
  intros t io ops d R F E. exists (written t d). split; [rewrite geo_run_written, E; reflexivity|]. intros ip. unfold geo_get. rewrite written_slow_get.
  destruct (slow_get ip d) as [[g|]| |] eqn:G; cbn [obind option_map]; try reflexivity.
  assert (X : exists k, tree_get k d = Some g) by (unfold slow_get in G; destruct ip; apply search_In in G; exact G).
  destruct X as (k & X). destruct (run_In ops d E k g X) as (o & I & <-). rewrite Forall_forall in F. destruct (F o I) as (O & L).
  rewrite (proj1 (C185_record t io (snd o) R O) L). reflexivity.
Qed.
Print Assumptions C185_lookups.

(** In particular, with IPv4 networks only, like the in-memory dataset. *)
Theorem C185_ipv4 : forall t io (ops : list (N * N * geo_info)), reads_f32 t io ->
  Forall (fun o => (fst (fst o) < 2 ^ 32)%N /\ (snd (fst o) <= 32)%N /\ record_ok (snd o) /\ located (snd o)) ops ->
  exists tr d, geo_run t (map (fun o => let '(ip, net, g) := o in (V4 ip, net, g)) ops) = Val tr /\
    ip_net_run (map (fun o => let '(ip, net, g) := o in Ins (V4 ip, net) g) ops) = Val d /\
    forall ip, (ip < 2 ^ 32)%N -> geo_get io (V4 ip) tr = Val (ip_net_get (V4 ip) d).
Proof.
  intros t io ops R F. destruct (C66_ipv4 geo_info ops) as (s & d & S & D & X).
  { eapply Forall_impl; [|exact F]. cbv beta. tauto. }
  assert (W : Forall (fun o => record_ok (snd o) /\ located (snd o)) (map (fun o : N * N * geo_info => let '(ip, net, g) := o in (V4 ip, net, g)) ops)).
  { rewrite Forall_forall in *. intros o I. apply in_map_iff in I as ([[ip net] g] & <- & I). specialize (F _ I). cbn [fst snd] in *. tauto. }
  destruct (C185_lookups t io _ s R W S) as (tr & T & Y).
  exists tr, d. splits; auto. intros ip B. rewrite Y. apply X, B.
Qed.
Print Assumptions C185_ipv4.

(** a record of the world: hypotheses met, record found *)
Definition geo_io : float_io := {| reread := Some; big_int := fun _ => None |}.
Definition madrid : geo_info := GeoInfo "Spain" "ES" "Madrid" (int_as_f32 40) (int_as_f32 (-3)) "Telefonica" 3352.
Example C185_case : reads_f32 (fun f => f) geo_io /\ record_ok madrid /\ located madrid /\
  exists tr, geo_run (fun f => f) [(V4 1347440640, 16%N, madrid)] = Val tr /\ geo_get geo_io (V4 1347440721) tr = Val (Some madrid) /\ geo_get geo_io (V4 1) tr = Val None.
Proof.
  split; [exact reads_f32_case|]. split; [split; [vm_compute; reflexivity|split; vm_compute; reflexivity]|]. split; [split; exact I|].
  exists (written (fun f => f) (match slow_run [(V4 1347440640, 16%N, madrid)] with Val t => t | _ => [] end)).
  split; [vm_compute; reflexivity|]. split; vm_compute; reflexivity.
Qed.

(** C186. Every record that was stored can be looked up: no lookup in a dataset aborts. *)
Definition geo_lookups_answer : Prop :=
  forall t io ops tr ip, reads_f32 t io -> Forall (fun o => record_ok (snd o)) ops -> geo_run t ops = Val tr -> ip_ok ip -> exists r, geo_get io ip tr = Val r.
(** For every record with a coordinate that is not a number, and every way floats are written and read: *)
Theorem C186_aborts : forall t io g ip net, reads_f32 t io -> record_ok g -> ~ located g -> (ip < 2 ^ 32)%N -> N.odd ip = true -> (net < 32)%N ->
  exists tr, geo_run t [(V4 ip, net, g)] = Val tr /\ geo_get io (V4 ip) tr = Panic.
Proof.
  intros t io g ip net R O L B Odd Hn. pose proof (C66_ipv4 geo_info [(ip, net, g)]) as (s & d & S & D & X).
  { constructor; [cbn [fst snd]; lia|constructor]. }
  cbn [map] in S, D. exists (written t s). split; [rewrite geo_run_written, S; reflexivity|].
  unfold geo_get. rewrite written_slow_get, (X ip B).
  assert (C : contains (V4 ip) net (V4 ip)) by (split; [reflexivity|]; split; [cbn; lia|reflexivity]).
  assert (Fd : exists v', ip_net_get (V4 ip) d = Some v').
  { apply (C34_odd_complete geo_info [Ins (V4 ip, net) g] d (V4 ip) (V4 ip) net g).
    - constructor; [exact B|constructor].
    - constructor; [cbn; lia|constructor].
    - exact D.
    - exact B.
    - exact B.
    - apply (proj2 (lives_snoc same_net [] (Ins (V4 ip, net) g) (V4 ip, net) g)). left. exists (V4 ip, net). split; [reflexivity|].
      split; [reflexivity|]. exact C.
    - exact C.
    - exact Odd.
    - cbn. lia. }
  destruct Fd as (v & V). rewrite V. cbn [obind option_map].
  assert (G : slow_get (V4 ip) s = Val (Some v)) by (rewrite (X ip B), V; reflexivity).
  unfold slow_get in G. apply search_In in G as (k & G). destruct (run_In _ s S k v G) as (o & [<-|[]] & <-). cbn [snd].
  rewrite (proj2 (C185_record t io g R O) L). reflexivity.
Qed.
Print Assumptions C186_aborts.

Theorem C186_refuted : ~ geo_lookups_answer.
Proof.
  intros H. set (g := GeoInfo "" "" "" (S754_infinity false) (int_as_f32 0) "" 0).
  assert (O : record_ok g) by (split; [vm_compute; reflexivity|split; vm_compute; reflexivity]).
  destruct (C186_aborts (fun f => f) geo_io g 1 24 reads_f32_case O) as (tr & T & P); try (vm_compute; reflexivity).
  { intros [L _]. exact L. }
  assert (F : Forall (fun o : siem_ip * N * geo_info => record_ok (snd o)) [(V4 1, 24%N, g)]) by (constructor; [exact O|constructor]).
  assert (I : ip_ok (V4 1)) by (vm_compute; reflexivity).
  destruct (H _ geo_io [(V4 1, 24%N, g)] tr (V4 1) reads_f32_case F T I) as (r & E). rewrite P in E. discriminate.
Qed.
Print Assumptions C186_refuted.
