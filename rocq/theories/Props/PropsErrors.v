(** Property C168: what the errors of parsers and conversions say. *)
From Coq Require Import String Ascii NArith ZArith List Bool Lia.
From Verif Require Import Base.Arith Base.Str Base.Outcome Model.IpUtils Model.Ip Model.Field Model.Metrics.
Import ListNotations.
Local Open Scope string_scope.
Local Open Scope list_scope.

(** The four rightmost parts between dots are read first, from the right; the first one that is not a number below 256 is
    reported; if all are and there are more parts, their number is. *)
Lemma ipv4_loop_err parts : forall number shift e, (exists k, shift = 8 * k /\ k <= 4)%N ->
  let room := N.to_nat (4 - shift / 8) in
  ipv4_loop parts number shift = Err e <->
  (e = "Cannot parse as u8" /\ Exists (fun p => parse_u8 p = None) (firstn room parts)) \/
  (e = "More than 4 dots" /\ Forall (fun p => parse_u8 p <> None) (firstn room parts) /\ (room < length parts)%nat).
Proof.
  induction parts as [|p parts IH]; intros number shift e (k & -> & K); cbn zeta.
  - cbn [ipv4_loop]. rewrite firstn_nil. split; [discriminate|].
    intros [[_ H]|(_ & _ & H)]; [inversion H|cbn in H; lia].
  - replace (8 * k / 8)%N with k by (rewrite N.mul_comm, N.div_mul; lia). cbn [ipv4_loop].
    destruct (N.leb_spec 32 (8 * k)) as [L|L].
    + assert (k = 4)%N by lia. subst k. cbn [N.sub N.to_nat firstn]. change (N.to_nat (4 - 4)) with O. cbn [firstn length].
      split; [intros [= <-]; right; splits; [reflexivity|constructor|lia]|].
      intros [[_ H]|(-> & _)]; [inversion H|reflexivity].
    + destruct (N.to_nat (4 - k)) as [|r] eqn:R; [lia|]. cbn [firstn length]. destruct (parse_u8 p) as [v|] eqn:P.
      * rewrite IH by (exists (k + 1)%N; lia). replace ((8 * k + 8) / 8)%N with (k + 1)%N
          by (replace (8 * k + 8)%N with ((k + 1) * 8)%N by lia; rewrite N.div_mul; lia).
        replace (N.to_nat (4 - (k + 1))) with r by lia. split.
        -- intros [[-> H]|(-> & H & H')]; [left; split; [reflexivity|right; exact H]|right; splits; [reflexivity|constructor; [congruence|exact H]|lia]].
        -- intros [[-> H]|(-> & H & H')]; [left; split; [reflexivity|inversion H; [congruence|assumption]]|
             right; splits; [reflexivity|inversion H; assumption|lia]].
      * split; [intros [= <-]; left; split; [reflexivity|left; exact P]|].
        intros [[-> _]|(_ & H & _)]; [reflexivity|inversion H; congruence].
Qed.
Theorem C168_ipv4 : forall s e, ipv4_from_str s = Err e <->
  let last4 := firstn 4 (rev (split_on "."%char s)) in
  (e = "Cannot parse as u8" /\ Exists (fun p => parse_u8 p = None) last4) \/
  (e = "More than 4 dots" /\ Forall (fun p => parse_u8 p <> None) last4 /\ (4 < length (split_on "."%char s))%nat).
Proof.
  intros s e. unfold ipv4_from_str. rewrite ipv4_loop_err by (exists 0%N; lia).
  change (N.to_nat (4 - 0 / 8)) with 4%nat. rewrite rev_length. reflexivity.
Qed.
Print Assumptions C168_ipv4.

(** IPv6: the size and the first characters have their own errors; any other text that is refused has one of five. *)
Lemma v6_loop_err bytes : forall fuel st e, v6_loop fuel bytes st = Val (Fail e) ->
  In e ["IPv6 can only have one ellipsis"; "Unexpected error"; "Invalid IPV4 length"].
Proof.
  induction fuel as [|f IH]; intros st e; cbn [v6_loop]; [discriminate|].
  destruct (Nat.eqb _ _); [discriminate|]. destruct (read_hextet _) as [[n h]| |]; cbn [obind]; try discriminate.
  destruct (Nat.eqb n 0).
  - destruct (nth_error _ _) as [c|]; [|discriminate].
    assert (A : forall x, Val (Fail "IPv6 can only have one ellipsis") = Val (Fail x) -> In x ["IPv6 can only have one ellipsis"; "Unexpected error"; "Invalid IPV4 length"])
      by (intros x [= <-]; left; reflexivity).
    destruct c as [[] [] [] [] [] [] [] []]; try apply A. destruct (v6_ell st); [apply A|apply IH].
  - destruct (set_nth _ _ _) as [addr| |]; cbn [obind]; try discriminate. destruct (_ || _); [discriminate|].
    destruct (nth_error _ _) as [c|]; [|discriminate].
    assert (A : forall x, Val (Fail "Unexpected error") = Val (Fail x) -> In x ["IPv6 can only have one ellipsis"; "Unexpected error"; "Invalid IPV4 length"])
      by (intros x [= <-]; right; left; reflexivity).
    destruct c as [[] [] [] [] [] [] [] []]; try apply A; try apply IH.
    unfold ipv4_to_u32_bytes. destruct (skipn _ _) as [|? [|? [|? [|? [|]]]]];
      try (intros [= <-]; right; right; left; reflexivity).
    destruct (set_nth _ _ addr) as [addr1| |]; cbn [obind]; try discriminate.
    destruct (set_nth _ _ addr1) as [addr2| |]; cbn [obind]; discriminate.
Qed.
Lemma v6_finish_err bytes st e : v6_finish bytes st = Val (Err e) ->
  In e ["There are trailing characters"; "Empty elipsis"; "Error"].
Proof.
  unfold v6_finish. destruct (Nat.ltb _ _); [intros [= <-]; left; reflexivity|].
  destruct (_ && _); [intros [= <-]; right; left; reflexivity|].
  destruct (Nat.ltb _ 8).
  - destruct (v6_ell st); cbn [obind].
    + destruct (shift_groups _ _ _ _); cbn [obind]; try discriminate. destruct (v6_sum _); cbn [obind]; discriminate.
    + intros [= <-]. right; right; left; reflexivity.
  - cbn [obind]. destruct (v6_sum _); cbn [obind]; discriminate.
Qed.
Theorem C168_ipv6 : forall s e, ipv6_from_str s = Val (Err e) ->
  if Nat.ltb 38 (String.length s) || Nat.ltb (String.length s) 2 then e = "Invalid ipv6 size"
  else if String.prefix ":" s && negb (String.prefix "::" s) then e = "An IPv6 cannot start with a single column."
  else In e ["IPv6 can only have one ellipsis"; "Unexpected error"; "Invalid IPV4 length";
             "There are trailing characters"; "Empty elipsis"; "Error"].
Proof.
  intros s e. unfold ipv6_from_str, ipv6_from_bytes. rewrite <- (string_of_list_ascii_of_string s).
  rewrite list_ascii_of_string_of_list_ascii. generalize (list_ascii_of_string s) as b. intros b.
  replace (String.length (string_of_list_ascii b)) with (length b) by (induction b; cbn; auto).
  destruct (Nat.ltb 38 (length b) || Nat.ltb (length b) 2) eqn:E; [congruence|].
  assert (G : forall off ell, (let! e := v6_loop (S (length b)) b {| v6_off := off; v6_ell := ell; v6_addr := repeat 0%N 8; v6_idx := 0 |} in
      match e with Fail m => Val (Err m) | Exit st => v6_finish b st end) = Val (Err e) ->
    In e ["IPv6 can only have one ellipsis"; "Unexpected error"; "Invalid IPV4 length";
             "There are trailing characters"; "Empty elipsis"; "Error"]).
  { intros off ell. destruct (v6_loop _ _ _) as [[st|m]| |] eqn:V; cbn [obind]; try discriminate.
    - intros H. apply v6_finish_err in H. cbn [In] in *. tauto.
    - intros [= <-]. apply v6_loop_err in V. cbn [In] in *. tauto. }
  destruct b as [|a [|c r]]; [discriminate E..|]. cbn [nth_error].
  cbn [string_of_list_ascii String.prefix].
  destruct (ascii_dec ":" a) as [<-|Na].
  - destruct (ascii_dec ":" c) as [<-|Nc].
    + cbn [andb negb]. destruct (ascii_dec ":" ":"); [|congruence]. cbn [andb negb].
      destruct (Nat.eqb _ 2); [discriminate|]. intros H. apply G in H. destruct r; exact H.
    + assert (X : forall (A : Type) (x y : A), match c with ":"%char => x | _ => y end = y).
      { intros A x y. destruct c as [[] [] [] [] [] [] [] []]; try reflexivity. congruence. }
      rewrite X. destruct r; congruence.
  - assert (X : forall (A : Type) (x y : A), match a with ":"%char => x | _ => y end = y).
    { intros A x y. destruct a as [[] [] [] [] [] [] [] []]; try reflexivity. congruence. }
    intros H. apply (G 0%nat None). revert H. 
    destruct a as [[] [] [] [] [] [] [] []]; try exact (fun H => H). congruence.
Qed.
Print Assumptions C168_ipv6.
Theorem C168_port : forall s e, port_to_u16 s = Err e <-> e = "Cannot parse port as u16" /\ parse_u16 s = None.
Proof. intros s e. unfold port_to_u16. destruct (parse_u16 s); split; intuition congruence. Qed.
Print Assumptions C168_port.

(** Fields *)
Theorem C168_fields : forall f e,
  (to_str f = Err e -> e = "Invalid text type") /\ (to_logstring f = Err e -> e = "Invalid type") /\
  (to_logstring_ref f = Err e -> e = "Invalid type") /\ (to_array_ref f = Err e -> e = "Invalid type") /\
  (to_u64 f = Err e -> e = "Invalid type") /\ (to_i64 f = Err e -> e = "Invalid type") /\ (to_f64 f = Err e -> e = "Invalid type") /\
  (to_ip f = Val (Err e) -> e = if is_text f then match f with Text _ => "Invalud ip format" | _ => "Type cannot be converted to Ip" end
                            else "Type cannot be converted to Ip").
Proof.
  intros f e. splits; destruct f; cbn; try congruence.
  destruct (from_ip_str s) as [[x|m]| |]; cbn [obind]; congruence.
Qed.
Print Assumptions C168_fields.

(** Metrics *)
Definition kind_word (m : metric) : string := match m with MCounter _ => "Counter" | MGauge _ => "Gauge" | MHistogram _ => "Histogram" end.
Theorem C168_metrics : forall m e,
  (to_gauge m = Err e -> e = "Cannot transform " ++ kind_word m ++ " to Gauge Metric")%string /\
  (to_counter m = Err e -> e = "Cannot transform " ++ kind_word m ++ " to Counter Metric")%string /\
  (to_histogram m = Err e -> e = "Cannot transform " ++ kind_word m ++ " to Histogram Metric")%string.
Proof. intros [v|v|v] e; splits; cbn; congruence. Qed.
Print Assumptions C168_metrics.
Theorem C168_metric_definitions : forall name description m e, metric_def_new name description m = Err e <->
  (valid_name name = false /\ e = "Invalid Metric name " ++ name)%string \/
  (valid_name name = true /\ valid_description description = false /\ e = "Invalid Metric description " ++ description)%string.
Proof.
  intros name description m e. unfold metric_def_new. destruct (valid_name name), (valid_description description); cbn [negb];
    split; intuition congruence.
Qed.
Print Assumptions C168_metric_definitions.
Example C168_case :
  ipv4_from_str "1.2.3.4.5" = Err "More than 4 dots" /\ ipv4_from_str "1.2.300.4.5" = Err "Cannot parse as u8" /\
  ipv6_from_str "1::2::3" = Val (Err "IPv6 can only have one ellipsis") /\ ipv6_from_str ":1" = Val (Err "An IPv6 cannot start with a single column.") /\
  to_u64 (Text "5") = Err "Invalid type" /\ to_ip (Text "x") = Val (Err "Invalud ip format").
Proof. vm_compute. splits; reflexivity. Qed.
