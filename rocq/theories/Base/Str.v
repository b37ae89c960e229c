(** Byte strings and the Rust string primitives the code uses. *)
From Coq Require Import String Ascii NArith ZArith List Bool Lia ZifyBool ZifyNat ZifyN.
Import ListNotations.
Local Open Scope string_scope.
Local Open Scope N_scope.

(** Does [s] contain the byte [c]? *)
Fixpoint str_has (c : ascii) (s : string) : bool :=
  match s with
  | EmptyString => false
  | String a r => Ascii.eqb a c || str_has c r
  end.

(** [str::split(c)]: always at least one (possibly empty) piece. *)
Fixpoint split_on (c : ascii) (s : string) : list string :=
  match s with
  | EmptyString => [EmptyString]
  | String a r =>
      if Ascii.eqb a c then EmptyString :: split_on c r
      else match split_on c r with
           | [] => [String a EmptyString]      (* unreachable, see [split_on_nonempty] *)
           | h :: t => String a h :: t
           end
  end.

Definition str1 (c : ascii) : string := String c EmptyString.

(** [parts.join(c)] *)
Fixpoint join (c : ascii) (l : list string) : string :=
  match l with
  | [] => ""
  | [x] => x
  | x :: r => x ++ String c (join c r)
  end.

(** [s.rfind(c)] as a cut: text before and after the last [c]. *)
Fixpoint rcut (c : ascii) (s : string) : option (string * string) :=
  match s with
  | EmptyString => None
  | String a r =>
      match rcut c r with
      | Some (x, y) => Some (String a x, y)
      | None => if Ascii.eqb a c then Some (EmptyString, r) else None
      end
  end.

(** [s.starts_with(p)] *)
Definition starts_with (p s : string) : bool := prefix p s.

(** [s.contains(p)] *)
Fixpoint str_contains (p s : string) : bool :=
  prefix p s || match s with EmptyString => false | String _ r => str_contains p r end.

(** ** Digits *)
(** [char::to_digit(radix)] for radix 10 and 16. *)
Definition digit_val (radix : N) (a : ascii) : option N :=
  let n := N_of_ascii a in
  let d := if (48 <=? n) && (n <=? 57) then Some (n - 48)
           else if (97 <=? n) && (n <=? 122) then Some (n - 87)
           else if (65 <=? n) && (n <=? 90) then Some (n - 55)
           else None in
  match d with Some v => if v <? radix then Some v else None | None => None end.

Fixpoint parse_digits (radix max acc : N) (s : string) : option N :=
  match s with
  | EmptyString => Some acc
  | String a r =>
      match digit_val radix a with
      | None => None
      | Some d =>
          let acc' := acc * radix + d in
          if acc' <=? max then parse_digits radix max acc' r else None
      end
  end.

(** [uN::from_str_radix(s, radix)] / [s.parse::<uN>()] ([max] = [uN::MAX]):
    empty text, a lone sign, a non-digit or an overflow is an error; one leading '+' is accepted. *)
Definition parse_uint (radix max : N) (s : string) : option N :=
  match s with
  | EmptyString => None
  | String a r =>
      if Ascii.eqb a "+"%char then
        match r with EmptyString => None | _ => parse_digits radix max 0 r end
      else parse_digits radix max 0 s
  end.

Definition u8_max : N := 255.
Definition u16_max : N := 65535.
Definition u32_max : N := 4294967295.
Definition u64_max : N := 18446744073709551615.
Definition parse_u8 := parse_uint 10 u8_max.
Definition parse_u16 := parse_uint 10 u16_max.
Definition parse_u64 := parse_uint 10 u64_max.

(** [s.parse::<i64>()] *)
Definition parse_i64 (s : string) : option Z :=
  match s with
  | String "-"%char r =>
      match r with
      | EmptyString => None
      | _ => match parse_digits 10 9223372036854775808 0 r with
             | Some n => Some (- Z.of_N n)%Z
             | None => None
             end
      end
  | _ => match parse_uint 10 9223372036854775807 s with
         | Some n => Some (Z.of_N n)
         | None => None
         end
  end.

(** ** Printing *)
Definition digit_char (d : N) : ascii :=
  if d <? 10 then ascii_of_N (48 + d) else ascii_of_N (87 + d).

(** Digits of [n], most significant first, prepended to [acc]; the fuel bounds the number of digits. *)
Fixpoint print_digits (fuel : nat) (radix n : N) (acc : string) : string :=
  match fuel with
  | O => acc
  | S f =>
      let acc' := String (digit_char (n mod radix)) acc in
      if n <? radix then acc' else print_digits f radix (n / radix) acc'
  end.

(** Enough fuel for [n] in any radix >= 2. *)
Definition print_fuel (n : N) : nat := S (N.to_nat (N.size n)).

(** [format!("{}", n)] for an unsigned integer. *)
Definition dec (n : N) : string := print_digits (print_fuel n) 10 n "".

(** [format!("{:x}", n)] *)
Definition hex (n : N) : string := print_digits (print_fuel n) 16 n "".

(** [format!("{}", z)] for a signed integer. *)
Definition dec_z (z : Z) : string :=
  if (z <? 0)%Z then String "-"%char (dec (Z.to_N (- z))) else dec (Z.to_N z).

(** [format!("{:02x}", b)] for a byte. *)
Definition hex2 (b : N) : string :=
  String (digit_char (b / 16)) (String (digit_char (b mod 16)) "").

(** ** ASCII case *)
Definition lower_ascii (a : ascii) : ascii :=
  let n := N_of_ascii a in
  if (65 <=? n) && (n <=? 90) then ascii_of_N (n + 32) else a.
Definition upper_ascii (a : ascii) : ascii :=
  let n := N_of_ascii a in
  if (97 <=? n) && (n <=? 122) then ascii_of_N (n - 32) else a.
Fixpoint smap (f : ascii -> ascii) (s : string) : string :=
  match s with EmptyString => EmptyString | String a r => String (f a) (smap f r) end.
Definition to_lower (s : string) : string := smap lower_ascii s.
Definition to_upper (s : string) : string := smap upper_ascii s.
(** [a.eq_ignore_ascii_case(b)] *)
Definition eq_ignore_case (a b : string) : bool := String.eqb (to_lower a) (to_lower b).

(** ** Lemmas *)
Lemma split_on_nonempty c s : split_on c s <> [].
Proof.
  destruct s as [|a r]; simpl; [discriminate|].
  destruct (Ascii.eqb a c); [discriminate|]. destruct (split_on c r); discriminate.
Qed.

Lemma str_has_app c s t : str_has c (s ++ t) = str_has c s || str_has c t.
Proof. induction s as [|a s IH]; simpl; [reflexivity|]. rewrite IH, orb_assoc; reflexivity. Qed.

Lemma str_app_nil_r s : s ++ "" = s.
Proof. induction s as [|a s IH]; simpl; congruence. Qed.

Lemma str_app_assoc (a b c : string) : (a ++ b) ++ c = a ++ (b ++ c).
Proof. induction a as [|x a IH]; simpl; congruence. Qed.

Lemma split_on_no_sep c s : str_has c s = false -> split_on c s = [s].
Proof.
  induction s as [|a s IH]; simpl; [reflexivity|].
  intros H; apply orb_false_iff in H as [Ha Hs]. rewrite Ha, (IH Hs). reflexivity.
Qed.

Lemma split_on_app_sep c s t :
  str_has c s = false -> split_on c (s ++ String c t) = s :: split_on c t.
Proof.
  induction s as [|a s IH]; simpl; intros H.
  - rewrite Ascii.eqb_refl; reflexivity.
  - apply orb_false_iff in H as [Ha Hs]. rewrite Ha, (IH Hs). reflexivity.
Qed.

Lemma split_on_join c l :
  l <> [] -> Forall (fun s => str_has c s = false) l -> split_on c (join c l) = l.
Proof.
  intros Hn H; induction H as [|x l Hx Hl IH]; [congruence|].
  destruct l as [|y l]; [apply split_on_no_sep; exact Hx|].
  change (join c (x :: y :: l)) with (x ++ String c (join c (y :: l))).
  rewrite split_on_app_sep by exact Hx. rewrite IH by discriminate. reflexivity.
Qed.

Lemma join_split_on c s : join c (split_on c s) = s.
Proof.
  induction s as [|a s IH]; simpl; [reflexivity|].
  destruct (Ascii.eqb_spec a c) as [->|Hn].
  - pose proof (split_on_nonempty c s) as Hne. destruct (split_on c s) as [|h t]; [congruence|].
    simpl in *. rewrite <- IH; reflexivity.
  - pose proof (split_on_nonempty c s) as Hne. destruct (split_on c s) as [|h t]; [congruence|].
    destruct t as [|h2 t]; simpl in *; rewrite <- IH; reflexivity.
Qed.

Lemma split_on_parts c s : Forall (fun p => str_has c p = false) (split_on c s).
Proof.
  induction s as [|a s IH]; simpl; [repeat constructor|].
  destruct (Ascii.eqb a c) eqn:E; [constructor; auto|].
  destruct (split_on c s) as [|h t].
  - repeat constructor; simpl; rewrite E; reflexivity.
  - inversion IH; subst. constructor; [simpl; rewrite E; assumption|assumption].
Qed.

Lemma rcut_app c x y : str_has c y = false -> rcut c (x ++ String c y) = Some (x, y).
Proof.
  intros Hy. assert (Hn : forall s, str_has c s = false -> rcut c s = None).
  { induction s as [|a s IH]; simpl; [reflexivity|]. intros H; apply orb_false_iff in H as [Ha Hs].
    rewrite (IH Hs), Ha; reflexivity. }
  induction x as [|a x IH]; simpl.
  - rewrite (Hn _ Hy), Ascii.eqb_refl; reflexivity.
  - rewrite IH; reflexivity.
Qed.

Lemma rcut_none c s : rcut c s = None <-> str_has c s = false.
Proof.
  induction s as [|a s IH]; simpl; [tauto|].
  destruct (rcut c s) as [[x y]|] eqn:E.
  - split; [discriminate|]. intros H; apply orb_false_iff in H as [_ Hs].
    apply IH in Hs; discriminate.
  - destruct (Ascii.eqb a c); simpl; split; try discriminate; try tauto.
Qed.

Lemma rcut_some c s x y : rcut c s = Some (x, y) -> s = x ++ String c y /\ str_has c y = false.
Proof.
  revert x y; induction s as [|a s IH]; simpl; intros x y; [discriminate|].
  destruct (rcut c s) as [[x' y']|] eqn:E.
  - intros H; inversion H; subst. destruct (IH _ _ eq_refl) as [-> Hy]. split; [reflexivity|exact Hy].
  - destruct (Ascii.eqb_spec a c) as [->|]; [|discriminate].
    intros H; inversion H; subst. split; [reflexivity|]. apply rcut_none; exact E.
Qed.

(** *** Printing then parsing *)
Lemma N_ascii_digit (d : N) : d < 256 -> N_of_ascii (ascii_of_N d) = d.
Proof. intros H. apply N_ascii_embedding; exact H. Qed.

Lemma digit_val_char radix d : d < radix -> radix <= 16 -> digit_val radix (digit_char d) = Some d.
Proof.
  intros H1 H2. unfold digit_val, digit_char.
  destruct (N.ltb_spec d 10) as [H|H].
  - rewrite N_ascii_digit by lia.
    replace ((48 <=? 48 + d) && (48 + d <=? 57)) with true by lia.
    replace (48 + d - 48) with d by lia. replace (d <? radix) with true by lia. reflexivity.
  - rewrite N_ascii_digit by lia.
    replace ((48 <=? 87 + d) && (87 + d <=? 57)) with false by lia.
    replace ((97 <=? 87 + d) && (87 + d <=? 122)) with true by lia.
    replace (87 + d - 87) with d by lia. replace (d <? radix) with true by lia. reflexivity.
Qed.

Lemma parse_print_digits fuel radix max n acc tail :
  2 <= radix -> radix <= 16 -> n <= max -> n < radix ^ N.of_nat fuel -> 
  (0 < fuel)%nat ->
  parse_digits radix max 0 (print_digits fuel radix n tail) = acc ->
  acc = parse_digits radix max n tail.
Proof.
  intros Hr1 Hr2. revert n tail acc.
  induction fuel as [|f IH]; intros n tail acc Hm Hn Hf; [lia|].
  cbn [print_digits].
  assert (Hmod : n mod radix < radix) by (apply N.mod_lt; lia).
  destruct (N.ltb_spec n radix) as [Hlt|Hge].
  - cbn [parse_digits]. rewrite digit_val_char by lia. rewrite N.mod_small by lia.
    replace (0 * radix + n) with n by lia. replace (n <=? max) with true by lia. auto.
  - intros H. assert (Hdiv : n / radix <= n) by (apply N.div_le_upper_bound; nia).
    assert (Hf' : (0 < f)%nat).
    { destruct f; [|lia]. exfalso. change (N.of_nat 1) with 1 in Hn. rewrite N.pow_1_r in Hn. lia. }
    apply IH in H; [|lia| |exact Hf'].
    + rewrite H. cbn [parse_digits]. rewrite digit_val_char by lia.
      assert (E : n / radix * radix + n mod radix = n).
      { rewrite (N.div_mod n radix) at 3 by lia. lia. }
      rewrite E. replace (n <=? max) with true by lia. reflexivity.
    + apply N.div_lt_upper_bound; [lia|]. rewrite Nat2N.inj_succ, N.pow_succ_r' in Hn. exact Hn.
Qed.

Lemma print_fuel_ok radix n : 2 <= radix -> n < radix ^ N.of_nat (print_fuel n).
Proof.
  intros Hr. unfold print_fuel. rewrite Nat2N.inj_succ, N2Nat.id.
  apply N.lt_le_trans with (2 ^ N.size n); [apply N.size_gt|].
  apply N.le_trans with (radix ^ N.size n).
  - apply N.pow_le_mono_l; exact Hr.
  - apply N.pow_le_mono_r; lia.
Qed.

Lemma digit_char_not_plus d : d < 16 -> Ascii.eqb (digit_char d) "+"%char = false.
Proof.
  intros H. apply Ascii.eqb_neq. intros E.
  assert (E2 : N_of_ascii (digit_char d) = 43) by (rewrite E; reflexivity).
  unfold digit_char in E2. destruct (N.ltb_spec d 10); rewrite N_ascii_digit in E2 by lia; lia.
Qed.

(** First byte of a printed number is a digit character. *)
Lemma print_digits_head fuel radix n tail :
  2 <= radix -> (0 < fuel)%nat ->
  exists d r, d < radix /\ print_digits fuel radix n tail = String (digit_char d) r.
Proof.
  intros Hr. revert n tail. induction fuel as [|f IH]; intros n tail Hf; [lia|].
  cbn [print_digits]. assert (Hmod : n mod radix < radix) by (apply N.mod_lt; lia).
  destruct (n <? radix); [eauto|].
  destruct f; [cbn [print_digits]; eauto|]. apply IH; lia.
Qed.

Lemma parse_print radix max n :
  2 <= radix -> radix <= 16 -> n <= max ->
  parse_uint radix max (print_digits (print_fuel n) radix n "") = Some n.
Proof.
  intros H1 H2 Hn.
  assert (Hf : (0 < print_fuel n)%nat) by (unfold print_fuel; lia).
  destruct (print_digits_head (print_fuel n) radix n "" H1 Hf) as (d & r & Hd & E).
  pose proof (parse_print_digits (print_fuel n) radix max n _ "" H1 H2 Hn (print_fuel_ok radix n H1) Hf eq_refl) as P.
  rewrite E in *. cbn [parse_uint]. rewrite digit_char_not_plus by lia. exact P.
Qed.

Lemma parse_dec max n : n <= max -> parse_uint 10 max (dec n) = Some n.
Proof. intros H; apply parse_print; lia. Qed.

Lemma parse_hex max n : n <= max -> parse_uint 16 max (hex n) = Some n.
Proof. intros H; apply parse_print; lia. Qed.

(** Every byte of a printed number is a digit character. *)
Fixpoint all_chars (P : ascii -> bool) (s : string) : bool :=
  match s with EmptyString => true | String a r => P a && all_chars P r end.

Lemma all_chars_app P s t : all_chars P (s ++ t) = all_chars P s && all_chars P t.
Proof. induction s as [|a s IH]; simpl; [reflexivity|]. rewrite IH, andb_assoc; reflexivity. Qed.

Lemma print_digits_chars P fuel radix n tail :
  2 <= radix -> (forall d, d < radix -> P (digit_char d) = true) ->
  all_chars P tail = true -> all_chars P (print_digits fuel radix n tail) = true.
Proof.
  intros Hr HP. revert n tail. induction fuel as [|f IH]; intros n tail Ht; [exact Ht|].
  cbn [print_digits]. assert (Hmod : n mod radix < radix) by (apply N.mod_lt; lia).
  assert (Ht' : all_chars P (String (digit_char (n mod radix)) tail) = true)
    by (cbn [all_chars]; rewrite (HP _ Hmod); exact Ht).
  destruct (n <? radix); auto.
Qed.

Lemma all_chars_no_has P c s : P c = false -> all_chars P s = true -> str_has c s = false.
Proof.
  intros Hc; induction s as [|a s IH]; cbn [all_chars str_has]; [reflexivity|].
  intros H; apply andb_true_iff in H as [Ha Hs]. rewrite (IH Hs), orb_false_r.
  apply Ascii.eqb_neq; congruence.
Qed.

Definition is_hex_lower (a : ascii) : bool :=
  let n := N_of_ascii a in ((48 <=? n) && (n <=? 57)) || ((97 <=? n) && (n <=? 102)).

Lemma digit_char_hex d : d < 16 -> is_hex_lower (digit_char d) = true.
Proof.
  intros H. unfold is_hex_lower, digit_char. destruct (N.ltb_spec d 10); rewrite N_ascii_digit by lia; lia.
Qed.

Lemma dec_hex_chars n : all_chars is_hex_lower (dec n) = true.
Proof.
  apply print_digits_chars; [lia| |reflexivity]. intros d Hd; apply digit_char_hex; lia.
Qed.
Lemma hex_hex_chars n : all_chars is_hex_lower (hex n) = true.
Proof.
  apply print_digits_chars; [lia| |reflexivity]. intros d Hd; apply digit_char_hex; lia.
Qed.

Lemma dec_no_char c n : is_hex_lower c = false -> str_has c (dec n) = false.
Proof. intros H; eapply all_chars_no_has; [exact H|apply dec_hex_chars]. Qed.

Lemma dec_not_empty n : dec n <> "".
Proof.
  destruct (print_digits_head (print_fuel n) 10 n "") as (d & r & _ & E); [lia|unfold print_fuel; lia|].
  unfold dec. rewrite E. discriminate.
Qed.

(** [str::split(|c| f(c))]: split at every character satisfying [f]. *)
Fixpoint split_pred (f : ascii -> bool) (s : string) : list string :=
  match s with
  | EmptyString => [EmptyString]
  | String a r =>
      if f a then EmptyString :: split_pred f r
      else match split_pred f r with
           | [] => [String a EmptyString]      (* unreachable *)
           | h :: t => String a h :: t
           end
  end.

Lemma split_pred_nonempty f s : split_pred f s <> [].
Proof.
  destruct s as [|a r]; simpl; [discriminate|].
  destruct (f a); [discriminate|]. destruct (split_pred f r); discriminate.
Qed.

Lemma split_pred_no_sep f s : all_chars (fun a => negb (f a)) s = true -> split_pred f s = [s].
Proof.
  induction s as [|a s IH]; cbn [all_chars split_pred]; [reflexivity|].
  intros H; apply andb_true_iff in H as [Ha Hs]. apply negb_true_iff in Ha. rewrite Ha, (IH Hs). reflexivity.
Qed.

Lemma split_pred_app_sep f s c t :
  all_chars (fun a => negb (f a)) s = true -> f c = true ->
  split_pred f (s ++ String c t) = s :: split_pred f t.
Proof.
  intros H Hc; induction s as [|a s IH]; cbn [append split_pred].
  - rewrite Hc; reflexivity.
  - cbn [all_chars] in H. apply andb_true_iff in H as [Ha Hs]. apply negb_true_iff in Ha.
    rewrite Ha, (IH Hs). reflexivity.
Qed.
